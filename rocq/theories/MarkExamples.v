(** MarkExamples: reports with their marks (support for C55). *)
From Verif Require Import Base Types Messages Analyzer Reporter Errors Context Faults SpecText SpecTree SpecResolve SpecLookup SpecReport SpecSnippet SpecDraw SpecMarks ParseOutcome QueryExamples PrintExamples.

Definition mark_doc : text := U "# s
a: 1
| more

list:
- x

- y

## sub
z: 2

# t
q: 3".
Definition mark_ctx : ctx := ctx_with TextReporter mark_doc.
Lemma mark_parsed : parse_context mark_doc en TextReporter None = Ok mark_ctx.
Proof. vm_compute. reflexivity. Qed.

(** something missing in section [s] *)
Definition missing_rows : list row :=
  [Line 1 Part (U "# s"); Line 2 Part (U "a: 1"); Line 3 Asked (U "| more"); Line 4 Part []; Line 5 Part (U "list:"); Line 6 Asked (U "- x"); Line 7 Asked []; Line 8 Asked (U "- y"); Line 9 Part [];
   Line 10 Near (U "## sub"); Line 11 Near (U "z: 2"); Dots].
Definition bad_rows : list row :=
  [Dots; Line 3 Near (U "| more"); Line 4 Near []; Line 5 Main (U "list:"); Line 6 Part (U "- x"); Line 7 Part []; Line 8 Part (U "- y"); Line 9 Near []; Line 10 Near (U "## sub"); Dots].
Definition snippet_is (v : complaint) (rows : list row) : Prop := exists x, validation_error mark_ctx v = Ok x /\ text_report en None rows (er_snippet x).
Lemma missing_drawn : snippet_is (NoElement None 1 Q_missing_field) missing_rows.
Proof. eexists. split; [vm_compute; reflexivity|]. eexists. split; [|shelve]. repeat constructor. Unshelve. vm_compute. reflexivity. Qed.
Lemma bad_drawn : snippet_is (BadElement [] 3) bad_rows.
Proof. eexists. split; [vm_compute; reflexivity|]. eexists. split; [|shelve]. repeat constructor. Unshelve. vm_compute. reflexivity. Qed.

Lemma at_map {A} (f : node -> A) (g : heap) l : map f g = l -> forall y, f (hget g y) = nth y l (f document_node).
Proof. intros <- y. symmetry. apply (map_nth f). Qed.
Lemma asked_of (g : heap) : map n_parent g = [None; Some 0; Some 1; Some 1; Some 3; Some 3; Some 1; Some 6; Some 0; Some 8] ->
  map n_line g = [0; 0; 1; 4; 5; 7; 9; 10; 12; 13] -> map (fun n => map l_line (rest n)) g = [[]; []; [2]; []; []; []; []; []; []; []] ->
  map n_type g = [DOCUMENT; SECTION; FIELD; LIST; LIST_ITEM; LIST_ITEM; SECTION; FIELD; SECTION; FIELD] -> map n_elements g = [[1; 8]; [2; 3; 6]; []; []; []; []; [7]; []; [9]; []] ->
  missing_marks g 1 6 Asked /\ missing_marks g 1 8 Part.
Proof.
  intros E1 E2 E3 E4 E5. pose proof (at_map _ _ _ E1) as P. pose proof (at_map _ _ _ E2) as L. pose proof (at_map _ _ _ E3) as R. pose proof (at_map _ _ _ E4) as T. pose proof (at_map _ _ _ E5) as E. cbn beta in R. clear E1 E2 E3 E4 E5.
  assert (before_sections g 1 [2; 3]) as HB.
  { exists [6]. rewrite E. split; [reflexivity|]. split; [|rewrite T; reflexivity]. intros x [<-|[<-|[]]]; rewrite T; cbn; discriminate. }
  assert (n_type (hget g 1) = SECTION) as HT by (rewrite T; reflexivity). split.
  - apply (mm_element _ 1 [2; 3] 3 6 HT HB); [right; now left|]. split; [rewrite L; cbn; lia|]. exists 7. split; [|lia]. exists 5. split; [right; apply enc_parent; now rewrite P|]. left. now rewrite L.
  - apply (mm_between _ 1 [2; 3] 8 HT HB); [rewrite L; cbn; lia| |].
    + assert (forall y q, n_parent (hget g y) = Some q -> In q [2; 3; 4; 5] -> In y [2; 3; 4; 5]) as K.
      { intros y q Hy Hq. rewrite P in Hy. do 10 (destruct y as [|y]; [cbn in Hy; try discriminate; injection Hy as <-; cbn in Hq |- *; lia|]). destruct y; discriminate. }
      assert (forall e x, In e [2; 3] -> encloses g e x -> In x [2; 3; 4; 5]) as HE.
      { intros e x He H. induction H as [i q Hp|i q a Hp _ IH]; apply (K i q Hp); [|auto]. cbn in He |- *. lia. }
      intros x Hx [_ (k & (y & Hy & Hk) & Hle)]. assert (In y [2; 3; 4; 5]) as Hin by (destruct Hy as [->|Hy]; [cbn in Hx |- *; lia|exact (HE x y Hx Hy)]).
      destruct Hk as [->|(l & Hl & ->)].
      * rewrite L in Hle. repeat destruct Hin as [<-|Hin]; try destruct Hin; cbn in Hle; lia.
      * apply (in_map l_line) in Hl. rewrite R in Hl. repeat destruct Hin as [<-|Hin]; try destruct Hin; cbn in Hl; repeat destruct Hl as [Hl|Hl]; try destruct Hl; lia.
    + right. exists 6. split; [exists [2; 3], []; split; [rewrite E; reflexivity|exact HB]|]. rewrite L. cbn. lia.
Qed.
(** lines 7 and 9 of the text, between the items of the list in section [s] and behind it *)
Lemma missing_asked : complaint_marks (c_heap mark_ctx) (NoElement None 1 Q_missing_field) 6 Asked /\ complaint_marks (c_heap mark_ctx) (NoElement None 1 Q_missing_field) 8 Part.
Proof. assert (missing_marks (c_heap mark_ctx) 1 6 Asked /\ missing_marks (c_heap mark_ctx) 1 8 Part) as [H1 H2] by (apply asked_of; vm_compute; reflexivity). split; now apply cm_missing. Qed.

(** a multiline field without end *)
Definition open_doc : text := U "a: 1

b: 2

c: 3
-- m
x

y".
Definition open_rows : list row := [Dots; Line 4 Near []; Line 5 Near (U "c: 3"); Line 6 Main (U "-- m"); Line 7 Part (U "x"); Line 8 Part []; Line 9 Part (U "y")].
Lemma open_drawn : exists x, parse_context open_doc en TextReporter None = Raise (ParseError x) /\ text_report en None open_rows (er_snippet x).
Proof. eexists. split; [vm_compute; reflexivity|]. eexists. split; [|shelve]. repeat constructor. Unshelve. vm_compute. reflexivity. Qed.
Lemma open_fault : exists h meta, fault open_doc (PUnterminatedMultiline 4) h meta 9 /\ n_line (hget h 4) = 5.
Proof.
  destruct (analyze open_doc) as [st lc|p st lc| |] eqn:Ha; try (vm_compute in Ha; discriminate). exists (a_heap st), (a_meta st).
  assert (p = PUnterminatedMultiline 4 /\ lc = 9 /\ n_line (hget (a_heap st) 4) = 5) as (-> & -> & E) by (vm_compute in Ha; injection Ha as <- <- <-; vm_compute; auto).
  split; [now constructor|assumption].
Qed.
