(** ErrorExamples: errors of concrete documents. *)
From Verif Require Import Base Types Messages Analyzer Reporter Errors Context Elements Session SpecApi SpecText SpecLookup Lookup SpecSelect Faults SessionRun PropAnalysisProofs QueryExamples LookupExamples PropErrorsProofs.

Definition selection_of {A} (r : res A) : option selection_t :=
  match r with Raise (ParseError x) | Raise (ValidationError x) => Some (er_selection x) | _ => None end.
Definition selected (l c i l' c' i' : nat) : selection_t := MkSel (MkCursor c i l) (MkCursor c' i' l').

(** a text that is no document *)
Definition bad_doc : text := U "a: b
c: d
- x".
Example bad_error : selection_of (parse_context bad_doc en TextReporter None) = Some (selected 2 0 10 2 3 13).
Proof. vm_compute. reflexivity. Qed.
Example bad_single : single_lines bad_doc (read_so_far bad_doc).
Proof.
  assert (forallb (fun n => forallb (fun k => negb (N.eqb k nl)) (at_range bad_doc (line_range (n_ranges n)))) (tl (read_so_far bad_doc)) = true) as H by (vm_compute; reflexivity).
  remember (read_so_far bad_doc) as h eqn:E. clear E. intros x Hx Hin. rewrite forallb_forall in H. destruct h as [|d h]; [cbn in Hx; lia|]. destruct x as [|x]; [lia|].
  assert (In (hget (d :: h) (S x)) h) as Hn by (cbn; apply nth_In; cbn in Hx; lia).
  specialize (H _ Hn). rewrite forallb_forall in H. specialize (H _ Hin). now rewrite N.eqb_refl in H.
Qed.
(** and a document with errors of each kind *)
Definition place (v : complaint) : option selection_t := match validation_error (ctx_of l_doc) v with Ok x => Some (er_selection x) | Raise _ => None end.
Example l_places : map place [BadElement [] 2; BadKey [] 1; BadValue [] 6; NoValue 3; NoComment 5; NoElement None 0 Q_missing_field; TooMany None [1; 2] Q_expected_single_field] =
  [Some (selected 4 0 33 8 6 54); Some (selected 2 0 20 2 5 25); Some (selected 12 0 78 12 3 81); Some (selected 5 1 40 5 3 42); Some (selected 9 0 55 9 0 55);
   Some (selected 0 0 0 0 0 0); Some (selected 2 0 20 3 3 32)].
Proof. vm_compute. reflexivity. Qed.

(** a line number that is not the number of the line *)
Lemma wrong_line : exists inp v x, parse_context inp en TextReporter None = Ok (ctx_of inp) /\ validation_error (ctx_of inp) v = Ok x /\ ~ selects (exact inp) (er_selection x).
Proof.
  pose (x := match validation_error (ctx_of crossing) (BadElement (U "m") 2) with Ok x => x | Raise _ => MkErr [] [] DOCUMENT_BEGIN end).
  exists crossing, (BadElement (U "m") 2), x. split; [vm_compute; reflexivity|]. split; [vm_compute; reflexivity|]. intros ((b & _ & H2 & _ & H4 & _) & _).
  assert (cu_column (sel_from (er_selection x)) = 0 /\ cu_index (sel_from (er_selection x)) = 6 /\ cu_line (sel_from (er_selection x)) = 1) as (E1 & E2 & E3) by (vm_compute; auto).
  rewrite E1, E2 in H2. rewrite E3 in H4. assert (b = 6) as -> by lia. vm_compute in H4. discriminate.
Qed.

Lemma q_places : let s := session q_doc q_calls in reach (ctx_of q_doc) s /\
  selection_of (snd (run_call (Query (Some KList) 6 (key_named "x") None) s)) = Some (selected 7 0 33 7 4 37) /\
  selection_of (snd (missing_error (A := unit) (Missing MKList (key_named "q") (PObject 6)) s)) = Some (selected 6 7 32 6 7 32) /\
  match snd (error_of 6 [] s) with Ok x => Some (er_selection x) | Raise _ => None end = Some (selected 6 0 25 8 2 40).
Proof. split; [exact q_reach|]. split; [vm_compute; reflexivity|]. split; vm_compute; reflexivity. Qed.
