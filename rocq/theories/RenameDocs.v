(** RenameDocs: documents with other keys and other values (C60). *)
From Verif Require Import Base Types Analyzer Scan SpecText SpecSaid SpecBroken SpecRename SpecEndings SaidRun SaidResolve SaidLoop RenameRun Resolver Reporter Errors Context ReadOps Messages ParseOutcome SaidReads RenameReads SaidProofs BrokenLoop SaidExamples.

Lemma cast_init r o : cast_ast r o init_ast = init_ast. Proof. reflexivity. Qed.

Section Doc.
  Context (r q o : text -> text) (Hr : renaming r) (Hq : renaming q) (Ho : observation o) (L1 L2 : list (list (nat * option text) * said)) (HE : told_as r o L1 = told_as q o L2).
  Lemma nrun_both : cast_out r o (nrun init_ast L1) = cast_out q o (nrun init_ast L2).
  Proof. pose proof (nrun_cast r o Hr L1 init_ast) as E1. pose proof (nrun_cast q o Hq L2 init_ast) as E2. rewrite cast_init in E1, E2. congruence. Qed.
  Lemma arun_both l1 l2 : L1 = noted [] l1 -> L2 = noted [] l2 -> match arun init_ast l1, arun init_ast l2 with
    | inl a1, inl a2 => casts r o (a_heap a1) = casts q o (a_heap a2) /\ ktab r (a_cs a1) = ktab q (a_cs a2) /\ ktab r (a_cn a1) = ktab q (a_cn a2)
    | inr e1, inr e2 => e1 = e2
    | _, _ => False
    end.
  Proof.
    intros E1 E2. pose proof (arun_noted l1 init_ast []) as F1. pose proof (arun_noted l2 init_ast []) as F2. change (with_c (pc []) init_ast) with init_ast in F1, F2. rewrite <- E1 in F1. rewrite <- E2 in F2.
    pose proof nrun_both as N. destruct (nrun init_ast L1) as [b1|x1], (nrun init_ast L2) as [b2|x2]; cbn [cast_out] in N; try discriminate; cbn [fin] in F1, F2;
      destruct (arun init_ast l1) as [a1|y1], (arun init_ast l2) as [a2|y2]; cbn [fin] in F1, F2; try discriminate; injection F1 as F1; injection F2 as F2; [|congruence].
    unfold cast_ast in N. injection N as N1 _ _ _ _ _ _ _ _ N2 N3. repeat split; congruence.
  Qed.

  Context (d1 d2 : text).
  Lemma analysed_both : tells d1 L1 -> tells d2 L2 -> match analyze d1, analyze d2 with
    | AOk s1 _, AOk s2 _ => near d1 d2 r q o (a_heap s1) (a_heap s2) /\ ktab r (a_cs s1) = ktab q (a_cs s2) /\ ktab r (a_cn s1) = ktab q (a_cn s2)
    | AErr p _ _, AErr p' _ _ => skin_err p = skin_err p'
    | _, _ => False
    end.
  Proof.
    intros (l1 & H1 & E1) (l2 & H2 & E2). pose proof (analyze_says d1 l1 H1) as A1. pose proof (analyze_says d2 l2 H2) as A2. pose proof (arun_both l1 l2 E1 E2) as E. unfold analysed_as in A1, A2.
    destruct (arun init_ast l1) as [a1|e1], (arun init_ast l2) as [a2|e2]; try contradiction.
    - destruct (analyze d1); try contradiction. destruct (analyze d2); try contradiction. destruct A1 as (B1 & B2 & B3), A2 as (C1 & C2 & C3), E as (G1 & G2 & G3). unfold near. repeat split; congruence.
    - subst e2. destruct (analyze d1); try contradiction. destruct (analyze d2); try contradiction. congruence.
  Qed.
  Lemma resolved_both h1 h2 cs cn cs' cn' : near d1 d2 r q o h1 h2 -> ktab r cs = ktab q cs' -> ktab r cn = ktab q cn' -> match resolve h1 cs cn, resolve h2 cs' cn' with
    | ROk k1, ROk k2 => near d1 d2 r q o k1 k2
    | RErr p k1, RErr p' k2 => p = p'
    | RKey, RKey | RFuel, RFuel => True
    | _, _ => False
    end.
  Proof.
    intros H Ecs Ecn. pose proof (SaidResolve.resolve_hom d1 h1 cs cn) as R1. pose proof (SaidResolve.resolve_hom d2 h2 cs' cn') as R2.
    pose proof (RenameRun.resolve_hom r o Hr (skins d1 h1) cs cn) as S1. pose proof (RenameRun.resolve_hom q o Hq (skins d2 h2) cs' cn') as S2. red in H. rewrite H, Ecs, Ecn in S1. rewrite S1, R1, R2 in S2. unfold near.
    destruct (resolve h1 cs cn), (resolve h2 cs' cn'); cbn in S2; try discriminate; try exact I; now injection S2.
  Qed.
  Theorem renamed_document : tells d1 L1 -> tells d2 L2 -> forall loc rk src c1, parse_context d1 loc rk src = Ok c1 -> exists c2, parse_context d2 loc rk src = Ok c2 /\
    forall hist a, answer_as r o a (answered d1 a (after d1 hist (c_heap c1))) = answer_as q o a (answered d2 a (after d2 hist (c_heap c2))).
  Proof.
    intros T1 T2 loc rk src c1 HP. apply parse_ok in HP as (st & lc & h & Ha & Hres & ->). pose proof (analysed_both T1 T2) as B. rewrite Ha in B. destruct (analyze d2) as [s2 lc2|? ? ?| |] eqn:E2; try contradiction.
    destruct B as (Bh & Bs & Bn). pose proof (resolved_both _ _ _ _ _ _ Bh Bs Bn) as R. rewrite Hres in R. destruct (resolve (a_heap s2) (a_cs s2) (a_cn s2)) as [k2| | |] eqn:Er; try contradiction.
    eexists. split; [apply parse_ok; exists s2, lc2, k2; split; [exact E2|split; [exact Er|reflexivity]]|]. cbn [c_heap]. intros hist a. now apply (answered_near d1 d2 r q o Hr Hq Ho).
  Qed.
  Theorem renamed_faults : tells d1 L1 -> tells d2 L2 -> forall p h meta lc, fault d1 p h meta lc -> exists p' h' meta' lc', fault d2 p' h' meta' lc' /\ same_complaint p p'.
  Proof.
    intros T1 T2 p h meta lc F. pose proof (analysed_both T1 T2) as B. destruct F as [e st lc Ha|e st lc h Ha Hres]; rewrite Ha in B; destruct (analyze d2) as [s2 lc2|e2 s2 lc2| |] eqn:E2; try contradiction.
    - do 4 eexists. split; [apply fault_line; exact E2|]. now apply same_complaint_skin.
    - destruct B as (Bh & Bs & Bn). pose proof (resolved_both _ _ _ _ _ _ Bh Bs Bn) as R. rewrite Hres in R. destruct (resolve (a_heap s2) (a_cs s2) (a_cn s2)) as [|p' k2| |] eqn:Er; try contradiction.
      subst p'. do 4 eexists. split; [eapply fault_copy; [exact E2|exact Er]|]. now apply same_complaint_skin.
  Qed.
  Theorem renamed_broken b : tells_until d1 L1 b -> tells_until d2 L2 b -> exists p h meta lc, fault d1 p h meta lc /\ exists p' h' meta' lc', fault d2 p' h' meta' lc' /\ same_complaint p p'.
  Proof.
    intros (l1 & H1 & E1) (l2 & H2 & E2). destruct (analyze_breaks d1 l1 b H1) as (p & s1 & c1 & A1 & P1). destruct (analyze_breaks d2 l2 b H2) as (p' & s2 & c2 & A2 & P2).
    do 4 eexists. split; [apply fault_line; exact A1|]. do 4 eexists. split; [apply fault_line; exact A2|]. apply same_complaint_skin. rewrite P1, P2.
    pose proof (arun_both l1 l2 E1 E2) as E. destruct (arun init_ast l1) as [a1|e1], (arun init_ast l2) as [a2|e2]; try contradiction; [|now subst].
    cbn [broken_err]. destruct b; [reflexivity|]. f_equal. destruct E as (E & _). now rewrite <- (casts_length r o (a_heap a1)), E, casts_length.
  Qed.
End Doc.

(** Accepted or not: neither keys nor values matter. *)
Theorem renamed_accepted r q o L1 L2 d1 d2 : renaming r -> renaming q -> observation o -> told_as r o L1 = told_as q o L2 -> tells d1 L1 -> tells d2 L2 ->
  forall loc rk src, (exists c1, parse_context d1 loc rk src = Ok c1) <-> (exists c2, parse_context d2 loc rk src = Ok c2).
Proof.
  intros Hr Hq Ho HE T1 T2 loc rk src. split; intros (c & HP).
  - destruct (renamed_document r q o Hr Hq Ho L1 L2 HE d1 d2 T1 T2 loc rk src c HP) as (c2 & H2 & _). eauto.
  - destruct (renamed_document q r o Hq Hr Ho L2 L1 (eq_sym HE) d2 d1 T2 T1 loc rk src c HP) as (c2 & H2 & _). eauto.
Qed.

(** * Renamings and observations *)
Definition next_letters : text -> text := map N.succ.
Lemma next_letters_renaming : renaming next_letters.
Proof.
  split; [reflexivity|]. unfold next_letters. induction a as [|x a IH]; intros [|y b] H; try discriminate; [reflexivity|]. cbn [map] in H. injection H as H1 H2. apply N.succ_inj in H1. f_equal; auto.
Qed.
Lemma same_text_renaming : renaming same_text.
Proof. split; [reflexivity|auto]. Qed.
Lemma same_text_observation : observation same_text.
Proof. unfold observation, same_text. intros. congruence. Qed.
Definition nothing (t : text) : text := [].
Lemma nothing_observation : observation nothing.
Proof. unfold observation. reflexivity. Qed.
Definition size (t : text) : text := map (fun _ => 0%N) t.
Lemma size_observation : observation size.
Proof. unfold observation, size. intros. rewrite !map_app. congruence. Qed.
Lemma strip_observation : observation strip.
Proof. unfold observation, strip. intros. rewrite !filter_app. congruence. Qed.

Definition ship : text := U "HAL: on
| again
# crew
> asleep
Dave:
- 1
- 2
## log < crew2
# crew2
Frank < HAL
".
Definition firm : text := U "IBM: on
| again
# dsfx
> asleep
Ebwf:
- 1
- 2
## mph < dsfx3
# dsfx3
Gsbol < IBM
".
Definition dull : text := U "HAL: aa
| bbbbb
# crew
> asleep
Dave:
- c
- d
## log < crew2
# crew2
Frank < HAL
".
Definition told (d : text) : list (list (nat * option text) * said) := match reading 60 d 0 with Some l => noted [] l | None => [] end.
Definition ship_said := Eval vm_compute in told ship.
Definition firm_said := Eval vm_compute in told firm.
Definition dull_said := Eval vm_compute in told dull.
Definition asked (d : text) (a : ask) : option (res answer) :=
  match parse_context d en HtmlReporter None with Ok c => Some (answered d a (c_heap c)) | Raise _ => None end.
Lemma ship_tells : tells ship ship_said /\ tells firm firm_said /\ tells dull dull_said.
Proof.
  split; [|split].
  - apply (tells_by 60 ship (match reading 60 ship 0 with Some l => l | None => [] end)); vm_compute; reflexivity.
  - apply (tells_by 60 firm (match reading 60 firm 0 with Some l => l | None => [] end)); vm_compute; reflexivity.
  - apply (tells_by 60 dull (match reading 60 dull 0 with Some l => l | None => [] end)); vm_compute; reflexivity.
Qed.
Lemma ship_firm : tells ship ship_said /\ tells firm firm_said /\ told_as next_letters same_text ship_said = told_as same_text same_text firm_said /\
  asked ship (AskValue 1) = Some (Ok (AnsText (Some (U "onagain")))) /\ asked firm (AskValue 1) = Some (Ok (AnsText (Some (U "onagain")))) /\ asked ship (AskRaw 0) <> None.
Proof. split; [apply ship_tells|split; [apply ship_tells|]]. split; [vm_compute; reflexivity|]. split; [vm_compute; reflexivity|]. split; [vm_compute; reflexivity|]. vm_compute. discriminate. Qed.
Lemma ship_dull : tells ship ship_said /\ tells dull dull_said /\ told_as same_text size ship_said = told_as same_text size dull_said /\
  asked dull (AskValue 1) = Some (Ok (AnsText (Some (U "aabbbbb")))).
Proof. split; [apply ship_tells|split; [apply ship_tells|]]. split; vm_compute; reflexivity. Qed.

(** different keys have to stay different *)
Definition two_names : text := U "a: 1
b: 2
c < b
".
Definition one_name : text := U "a: 1
a: 2
c < a
".
Definition merged (t : text) : text := map (fun c => if N.eqb c 98 then 97%N else c) t.
Definition two_said := Eval vm_compute in told two_names.
Definition one_said := Eval vm_compute in told one_name.
Lemma merged_keys : tells two_names two_said /\ tells one_name one_said /\ told_as merged same_text two_said = told_as same_text same_text one_said /\
  asked two_names (AskValue 3) = Some (Ok (AnsText (Some (U "2")))) /\ asked one_name (AskValue 3) = None.
Proof.
  split; [apply (tells_by 60 two_names (match reading 60 two_names 0 with Some l => l | None => [] end)); vm_compute; reflexivity|].
  split; [apply (tells_by 60 one_name (match reading 60 one_name 0 with Some l => l | None => [] end)); vm_compute; reflexivity|].
  split; [vm_compute; reflexivity|]. split; vm_compute; reflexivity.
Qed.
