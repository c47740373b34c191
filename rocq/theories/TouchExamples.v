(** TouchExamples: concrete sessions for PropTouch. *)
From Verif Require Import Base Types Messages Reporter Errors Context Elements SpecTree SpecRead SpecApi SpecQuery SpecLoad SpecTouch SpecRequire Session SessionRun QueryExamples PropTouchProofs.

Definition w_doc : text := U "a: 1
b:
p = 1
c:
# s
l:
- x".
(** everything is read as something: the field a is object 5, the fieldset b 6 with entry 7, the
    fieldset c 8, the section s 9 and the list l 11 *)
Definition w_reads : list call :=
  [Query (Some KField) 0 (key_named "a") None; Query (Some KFieldset) 0 (key_named "b") None; QueryEntry 6 (key_named "p") None;
   Query (Some KFieldset) 0 (key_named "c") None; Query (Some KSection) 0 (key_named "s") None; Query (Some KList) 9 (key_named "l") None].
(** all but the section s are used *)
Definition w_some : list call := w_reads ++ [Value text 5 string_loader true; Value text 7 string_loader true; StringKey 8].
Definition w_all : list call := w_some ++ [Values text 11 string_loader true].

Lemma w_parsed : parse_context w_doc en TextReporter None = Ok (ctx_of w_doc). Proof. vm_compute. reflexivity. Qed.
Lemma w_ends e : ends (c_heap (ctx_of w_doc)) e. Proof. apply all_end_true. vm_compute. reflexivity. Qed.
Lemma w_reach0 : reach (ctx_of w_doc) (begin w_doc). Proof. apply (session_reach w_doc []). vm_compute. reflexivity. Qed.
Lemma w_reach1 : reach (ctx_of w_doc) (session w_doc w_reads). Proof. apply session_reach. vm_compute. reflexivity. Qed.
Lemma w_reach2 : reach (ctx_of w_doc) (session w_doc w_some). Proof. apply session_reach. vm_compute. reflexivity. Qed.
Lemma w_reach3 : reach (ctx_of w_doc) (session w_doc w_all). Proof. apply session_reach. vm_compute. reflexivity. Qed.
Lemma w_names l : l = [] \/ l = w_reads \/ l = w_some \/ l = w_all -> names (session w_doc l) 0 CSection 0.
Proof. intro H. split; [|split]; destruct H as [->|[->|[->| ->]]]; try (apply Nat.ltb_lt); vm_compute; reflexivity. Qed.
Lemma w_fieldset : names (session w_doc w_reads) 6 CFieldset 2 /\ names (session w_doc w_some) 6 CFieldset 2.
Proof. repeat split; try (apply Nat.ltb_lt); vm_compute; reflexivity. Qed.

Lemma w_asserts :
  snd (assert_all_touched 0 MsgNone None None (session w_doc w_all)) = Ok tt /\
  is_validation (snd (assert_all_touched 0 MsgNone None None (session w_doc w_some))) = true /\
  snd (assert_all_touched 0 MsgNone None (Some [U "s"]) (session w_doc w_some)) = Ok tt /\
  snd (assert_all_touched 0 MsgNone (Some [U "a"; U "b"]) None (session w_doc w_some)) = Ok tt.
Proof. repeat (split; [vm_compute; reflexivity|]). vm_compute. reflexivity. Qed.
Lemma w_all_seen : all_seen (c_heap (ctx_of w_doc)) (session w_doc w_all) 0 None None.
Proof.
  apply (proj1 (asserted w_parsed _ 0 0 MsgNone None None w_reach3 (w_names w_all (or_intror (or_intror (or_intror eq_refl)))))).
  exact (proj1 w_asserts).
Qed.
(** the list was read but not used *)
Lemma w_overlooked : overlooked (c_heap (ctx_of w_doc)) (session w_doc w_some) 0 None None 6.
Proof.
  left. exists [1; 2; 3; 4], 4. split; [vm_compute; reflexivity|]. split; [cbn; tauto|]. split.
  - intros (x & _ & [(l & E & _)|(y & l & E & _)]); discriminate.
  - apply (un_below _ _ 4 9 [10] 10); [vm_compute; reflexivity|vm_compute; reflexivity|vm_compute; reflexivity|now left|].
    replace 6 with (o_instr (oget (session w_doc w_some) 11)) by (vm_compute; reflexivity). apply (un_unused _ _ 10 KList 11); [vm_compute; reflexivity|]. unfold touched. vm_compute. discriminate.
Qed.

Lemma fieldset_wrong : exists inp s o e, parse_context inp en TextReporter None = Ok (ctx_of inp) /\ reach (ctx_of inp) s /\ names s o CFieldset e /\
  snd (fieldset_assert_all_touched o MsgNone None None s) = Raise TypeError.
Proof. exists w_doc, (session w_doc w_reads), 6, 2. split; [exact w_parsed|]. split; [exact w_reach1|]. split; [exact (proj1 w_fieldset)|]. vm_compute. reflexivity. Qed.
Lemma w_entries : snd (fieldset_assert_all_touched 6 MsgNone None None (session w_doc w_some)) = Ok tt.
Proof. vm_compute. reflexivity. Qed.

(** ** touch() *)
Lemma touch_wrong : exists inp s o e, parse_context inp en TextReporter None = Ok (ctx_of inp) /\ reach (ctx_of inp) s /\ names s o CSection e /\
  snd (touch_section o s) = Ok tt /\ is_validation (snd (assert_all_touched o MsgNone None None (fst (touch_section o s)))) = true.
Proof. exists w_doc, (begin w_doc), 0, 0. split; [exact w_parsed|]. split; [exact w_reach0|]. split; [exact (w_names [] (or_introl eq_refl))|]. split; [vm_compute; reflexivity|]. vm_compute. reflexivity. Qed.
Lemma w_touch : let s := session w_doc w_reads in
  snd (touch_section 0 s) = Ok tt /\ snd (assert_all_touched 0 MsgNone None None (fst (touch_section 0 s))) = Ok tt /\
  is_validation (snd (assert_all_touched 0 MsgNone None None s)) = true /\ all_opened (c_heap (ctx_of w_doc)) s 0 None None.
Proof.
  intro s. assert (E : snd (assert_all_touched 0 MsgNone None None (fst (touch_section 0 s))) = Ok tt) by (vm_compute; reflexivity).
  split; [vm_compute; reflexivity|]. split; [exact E|]. split; [vm_compute; reflexivity|].
  destruct (touched_section w_parsed s 0 0 w_reach1 (w_names w_reads (or_intror (or_introl eq_refl)))) as [(_ & _ & H)|(_ & j & H)].
  - exact (proj1 (H None None MsgNone) E).
  - exfalso. apply H, w_ends.
Qed.

(** ** all_elements_required() *)
Lemma require_wrong : exists inp s o e, parse_context inp en TextReporter None = Ok (ctx_of inp) /\ reach (ctx_of inp) s /\ names s o CSection e /\
  snd (all_elements_required o true s) = Raise AttributeError.
Proof. exists w_doc, (begin w_doc), 0, 0. split; [exact w_parsed|]. split; [exact w_reach0|]. split; [exact (w_names [] (or_introl eq_refl))|]. vm_compute. reflexivity. Qed.
Lemma require_misses : exists inp s o e y, parse_context inp en TextReporter None = Ok (ctx_of inp) /\ reach (ctx_of inp) s /\ names s o CSection e /\
  snd (all_elements_required o true s) = Ok tt /\
  (exists x, snd (query (Some KFieldset) o (key_named "c") None (fst (all_elements_required o true s))) = Ok (FObj y) /\ names s y CFieldset x) /\
  snd (entry_query y (key_named "x") None (fst (all_elements_required o true s))) = Ok (FMissing (Missing MKEntry (key_named "x") (PObject y))).
Proof.
  exists w_doc, (session w_doc w_reads), 0, 0, 8. split; [exact w_parsed|]. split; [exact w_reach1|]. split; [exact (w_names w_reads (or_intror (or_introl eq_refl)))|]. split; [vm_compute; reflexivity|]. split.
  - exists 4. split; [vm_compute; reflexivity|]. repeat split; try (apply Nat.ltb_lt); vm_compute; reflexivity.
  - vm_compute. reflexivity.
Qed.
(** the section s (object 9) and the fieldset b (object 6) get the flag *)
Lemma w_require : let s := session w_doc w_reads in let s' := fst (all_elements_required 0 true s) in
  snd (all_elements_required 0 true s) = Ok tt /\ ready (c_heap (ctx_of w_doc)) s 0 /\
  reached (c_heap (ctx_of w_doc)) s' s' 0 9 /\ reached (c_heap (ctx_of w_doc)) s' s' 0 6 /\
  is_validation (snd (query None 9 (key_named "x") None s')) = true /\ is_validation (snd (entry_query 6 (key_named "x") (Some false) s')) = true.
Proof.
  intros s s'. assert (E : snd (all_elements_required 0 true s) = Ok tt) by (vm_compute; reflexivity).
  split; [exact E|]. split; [|split; [|split; [|split]]].
  - destruct (required_when w_parsed s 0 0 true w_reach1 (w_names w_reads (or_intror (or_introl eq_refl)))) as [(_ & H)|[(H & _)|(H & _)]]; [exact H|rewrite E in H; discriminate..].
  - split; [apply Nat.ltb_lt; vm_compute; reflexivity|]. split; [|left; vm_compute; reflexivity]. apply (in_up s' 0 9 0); [vm_compute; reflexivity|constructor].
  - split; [apply Nat.ltb_lt; vm_compute; reflexivity|]. split; [|right; split; [vm_compute; reflexivity|left; vm_compute; reflexivity]]. apply (in_up s' 0 6 0); [vm_compute; reflexivity|constructor].
  - vm_compute. reflexivity.
  - vm_compute. reflexivity.
Qed.
