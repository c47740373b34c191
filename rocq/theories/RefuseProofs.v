(** RefuseProofs: how building an error about a parsed document can fail. *)
From Verif Require Import Base Types Messages Scan Analyzer HeapFacts AnalyzerInv StepChange SpecText AnalyzerText SpecTree AnalyzerTree AnalyzerFinal
  Resolver SpecResolve Context SpecApi ApiDoc Reporter Errors Faults SpecLookup LookupDoc ReporterFacts ReporterTags ParseErrors ParseContext ParseOutcome
  SpecSelect SelectProofs SessionInv PropLookupProofs PrintDoc SpecPrint PrintProofs.

(** a result, a KeyError or a TypeError *)
Definition mild {A} (x : res A) : Prop := (exists a, x = Ok a) \/ x = Raise KeyError \/ x = Raise TypeError.
Lemma mild_ok {A} (a : A) : mild (Ok a). Proof. left. now exists a. Qed.
Lemma mild_bind {A B} (x : res A) (f : A -> res B) : mild x -> (forall a, x = Ok a -> mild (f a)) -> mild (bind x f).
Proof. intros [[a ->]|[->| ->]] Hf; cbn [bind]; [now apply Hf|right; auto..]. Qed.
Lemma mild_have {A} (x : res A) : (exists a, x = Ok a) -> mild x. Proof. now left. Qed.
Lemma mild_build t s sel : mild s -> (forall u, s = Ok u -> mild sel) -> mild (build (Ok t) s sel).
Proof. intros H1 H2. unfold build. cbn [bind]. apply mild_bind; [assumption|]. intros a Ha. apply mild_bind; [exact (H2 a Ha)|]. intros. apply mild_ok. Qed.
Lemma mild_fin t s sel : mild s -> (forall u, s = Ok u -> mild sel) -> mild (do s <- s; do sel <- sel; Ok (MkErr t s sel)).
Proof. intros H1 H2. apply mild_bind; [assumption|]. intros a Ha. apply mild_bind; [exact (H2 a Ha)|]. intros. apply mild_ok. Qed.
Lemma mild_key {A} (o : option A) : mild (key_or o). Proof. destruct o; [apply mild_ok|right; now left]. Qed.
Lemma mild_cursor i r p : mild (cursor i r p).
Proof.
  unfold cursor. destruct (rget (i_ranges i) r) as [z|]; cbn [key_or bind]; [|right; now left].
  repeat match goal with |- mild (bind _ _) => apply mild_bind; [|intros ? _] | |- mild (key_or _) => apply mild_key | |- mild (Ok _) => apply mild_ok | |- mild (match ?x with _ => _ end) => destruct x end.
Qed.

(** the elements the constructor of a missing value knows about *)
Definition valued (t : itype) : bool := match t with FIELD | EMPTY_ELEMENT | MULTILINE_FIELD_BEGIN | FIELDSET_ENTRY | LIST_ITEM => true | _ => false end.
(** asked about at least one element, about a value only where there can be one *)
Definition proper (h : heap) (v : complaint) : Prop :=
  match v with TooMany _ es _ => es <> [] | NoValue e => valued (n_type (hget h e)) = true | _ => True end.

Section Parsed.
  Context {inp : text} {loc : locale} {rk : reporter_kind} {src : option text} {c : ctx} (HP : parse_context inp loc rk src = Ok c).
  Local Notation h := (c_heap c).
  Local Notation nd := (hget (c_heap c)).
  Let Hwf : WF c := wf_parse inp loc rk src c HP.
  Let PD : PDoc h (c_meta c) := pdoc_parse HP.
  Let HD : Doc h := doc_of_parse inp loc rk src c HP.

  Lemma placed_or e : 0 < e < length h \/ n_type (nd e) = DOCUMENT.
  Proof.
    destruct e as [|e]; [right; apply (doc_root _ HD)|]. destruct (Nat.lt_ge_cases (S e) (length h)) as [H|H]; [left; lia|].
    right. unfold hget. rewrite nth_overflow by assumption. reflexivity.
  Qed.
  Lemma mark_document r e t : rep c r -> n_type (nd e) = DOCUMENT -> mark_node r e t = Raise KeyError.
  Proof. intros Hr Ht. unfold mark_node. rewrite (rep_heap c r Hr). unfold node_line. rewrite Ht. reflexivity. Qed.
  Lemma mild_snippet r : rep c r -> mild (snippet r).
  Proof. intro Hr. destruct (snippet_out c Hwf r Hr) as [H|[_ H]]; [now left|right; now left]. Qed.
  Definition kept (x : res reporter) : Prop := (exists r, x = Ok r /\ rep c r) \/ x = Raise KeyError \/ x = Raise TypeError.
  Lemma kept_ok x : ok_with x (rep c) -> kept x. Proof. intros (r & E & H). left. now exists r. Qed.
  Lemma mild_report f : (forall r, rep c r -> kept (f r)) -> mild (report c f).
  Proof.
    intro Hf. unfold report. destruct (rep_new c Hwf) as (r & -> & Hr). cbn [bind]. destruct (Hf r Hr) as [(r1 & -> & H1)|[->| ->]]; cbn [bind]; [now apply mild_snippet|right; auto..].
  Qed.
  Lemma kept_element r e : rep c r -> kept (report_element r e).
  Proof.
    intro Hr. destruct (placed_or e) as [He|He].
    - destruct (rep_element c Hwf r e Hr He) as [[H _]|[H _]]; [now apply kept_ok|right; now right].
    - unfold report_element. rewrite mark_document by assumption. right. now left.
  Qed.
  Lemma mild_element e : mild (report c (fun r => report_element r e)).
  Proof. apply mild_report. intros r Hr. now apply kept_element. Qed.
  Lemma mild_elements es : mild (report c (fun r => report_elements r es)).
  Proof.
    apply mild_report. unfold report_elements. induction es as [|e es IH]; intros r Hr; cbn [foldM]; [left; now exists r|].
    destruct (kept_element r e Hr) as [(r1 & -> & H1)|[->| ->]]; cbn [bind]; [now apply IH|right; auto..].
  Qed.
  Lemma mild_line e : mild (report c (fun r => report_line r e)).
  Proof.
    apply mild_report. intros r Hr. unfold report_line. destruct (placed_or e) as [He|He]; [apply kept_ok; now apply rep_mark_node|]. rewrite mark_document by assumption. right. now left.
  Qed.
  Lemma element_placed e u : report c (fun r => report_element r e) = Ok u -> 0 < e < length h.
  Proof.
    destruct (placed_or e) as [He|He]; [auto|]. unfold report. destruct (rep_new c Hwf) as (r & -> & Hr). cbn [bind]. unfold report_element. rewrite mark_document by assumption. discriminate.
  Qed.
  Lemma line_placed e u : report c (fun r => report_line r e) = Ok u -> 0 < e < length h.
  Proof.
    destruct (placed_or e) as [He|He]; [auto|]. unfold report. destruct (rep_new c Hwf) as (r & -> & Hr). cbn [bind]. unfold report_line. rewrite mark_document by assumption. discriminate.
  Qed.
  Lemma elements_placed e es u : report c (fun r => report_elements r (e :: es)) = Ok u -> 0 < e < length h.
  Proof.
    destruct (placed_or e) as [He|He]; [auto|]. unfold report. destruct (rep_new c Hwf) as (r & -> & Hr). cbn [bind]. unfold report_elements. cbn [foldM]. unfold report_element at 1.
    rewrite mark_document by assumption. discriminate.
  Qed.
  Lemma mild_select_key e : mild (select_key c e).
  Proof.
    unfold select_key, select_range, selection. apply mild_bind; [apply mild_cursor|]. intros ? _. apply mild_bind; [apply mild_cursor|]. intros ? _. apply mild_ok.
  Qed.
  Lemma proper_mild v : proper h v -> mild (validation_error c v).
  Proof.
    intro Hv. destruct v as [m e|m e|m e|m e|e|k e q|e|m e|k es q|k e q]; cbn [validation_error proper] in *;
      unfold v_comment_error, v_element_error, v_key_error, v_missing_comment, v_missing_element, v_unexpected_element, v_unexpected_multiple_elements, v_unexpected_element_type; cbv zeta.
    - destruct (n_comments (nd e)) as [cs|] eqn:Ec.
      + destruct (placed_or e) as [He|He].
        * apply mild_build; [|intros; apply mild_have; apply (select_comments_ok HP); congruence]. apply mild_report. intros r Hr. apply kept_ok. exact (rep_comments c Hwf r e cs Hr He Ec).
        * apply mild_build.
          -- apply mild_report. intros r Hr. unfold report_comments. rewrite mark_document by assumption. right. now left.
          -- intros u Hu. exfalso. revert Hu. unfold report. destruct (rep_new c Hwf) as (r & -> & Hr). cbn [bind]. unfold report_comments. rewrite mark_document by assumption. discriminate.
      + assert (K : forall r, rep c r -> report_comments r e = Raise KeyError).
        { intros r Hr. unfold report_comments. destruct (placed_or e) as [He|He]; [|now rewrite mark_document].
          destruct (rep_mark_node c Hwf r e INDICATE Hr He) as (r1 & -> & H1). cbn [bind]. rewrite (rep_heap c r1 H1), Ec. reflexivity. }
        apply mild_build.
        * apply mild_report. intros r Hr. rewrite K by assumption. right. now left.
        * intros u Hu. exfalso. revert Hu. unfold report. destruct (rep_new c Hwf) as (r & -> & Hr). cbn [bind]. rewrite K by assumption. discriminate.
    - apply mild_build; [apply mild_element|]. intros u Hu. apply element_placed in Hu. apply mild_have. now apply (select_element_ok HP).
    - apply mild_build; [apply mild_line|]. intros. apply mild_select_key.
    - destruct (placed_or e) as [He|He].
      + destruct (rep_new c Hwf) as (r & Er & Hr). destruct (rep_element c Hwf r e Hr He) as [[_ Hb]|[E Hb]].
        * destruct (value_error_ok HP True (fun r Hr => match snippet_out c Hwf r Hr with or_introl H => or_introl H | or_intror H => or_intror (conj I (proj2 H)) end) m e He) as [H|[_ H]].
          -- intros _ Hg. apply Hb. now apply (gap_iff HP).
          -- now left.
          -- right. now left.
        * destruct (n_mirror (nd e)) as [mi|] eqn:Em.
          -- unfold v_value_error. rewrite Em. cbn [opt_is]. apply mild_fin; [apply mild_line|]. intros. apply mild_select_key.
          -- unfold v_value_error. rewrite Em. cbn [opt_is]. destruct (itype_eqb (n_type (nd e)) MULTILINE_FIELD_BEGIN) eqn:Et.
             ++ exfalso. apply (gap_iff HP) in Hb. revert Hb. apply no_gap. intro Es. rewrite Es in Et. discriminate.
             ++ unfold report. rewrite Er. cbn [bind]. rewrite E. cbn [bind]. right. now right.
      + unfold v_value_error. rewrite He. cbn [itype_eqb]. destruct (opt_is (n_mirror (nd e))).
        * apply mild_fin; [apply mild_line|]. intros. apply mild_select_key.
        * apply mild_fin; [apply mild_element|]. intros u Hu. apply element_placed in Hu. destruct (kind HP e Hu). contradiction.
    - apply mild_build; [apply mild_line|]. intros u Hu. apply line_placed in Hu. apply mild_have. now apply (select_point_ok HP).
    - destruct (placed_or e) as [He|He].
      + apply mild_build.
        * apply mild_report. intros r Hr. destruct (rep_missing c Hwf r e Hr) as [[H _]|[H _]]; [lia|now apply kept_ok|right; now right].
        * intros. apply mild_have. destruct (itype_eqb (n_type (nd e)) DOCUMENT); [eexists; reflexivity|]. now apply (select_point_ok HP).
      + apply mild_build.
        * apply mild_report. intros r Hr. unfold report_missing_element. rewrite (rep_heap c r Hr), He. cbn [itype_eqb bind].
          unfold tfuel. cbn [tag_element]. rewrite (rep_heap c r Hr), He. cbn [bind]. left. eexists. split; [reflexivity|]. apply rep_with; [assumption|apply Hr].
        * intros. rewrite He. cbn [itype_eqb]. apply mild_ok.
    - destruct (placed_or e) as [He|He]; [|rewrite He in Hv; discriminate].
      destruct (missing_value_ok HP True (fun r Hr => match snippet_out c Hwf r Hr with or_introl H => or_introl H | or_intror H => or_intror (conj I (proj2 H)) end) e He) as [H|[_ H]].
      + destruct (n_type (nd e)); try discriminate; tauto.
      + now left.
      + right. now left.
    - apply mild_build; [apply mild_element|]. intros u Hu. apply element_placed in Hu. apply mild_have. now apply (select_element_ok HP).
    - destruct es as [|e es]; [congruence|]. apply mild_build; [apply mild_elements|]. intros u Hu. apply elements_placed in Hu. apply mild_have. now apply (select_element_ok HP).
    - apply mild_build; [apply mild_element|]. intros u Hu. apply element_placed in Hu. apply mild_have. now apply (select_element_ok HP).
  Qed.
End Parsed.
