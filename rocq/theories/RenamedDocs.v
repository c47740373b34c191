(** RenamedDocs: what programs see of documents with other keys and other values (C61, C59). *)
From Verif Require Import Base Types Messages Analyzer Scan SpecText SpecSaid SpecBroken SpecRename SpecEndings CrlfProofs SaidRun SaidResolve SaidLoop CrlfRun RenameRun Resolver Reporter Errors Context Elements Session Faults
  ParseOutcome SpecRead Reads ApiDoc ApiInv ApiState SessionInv SpecQuery QueryProofs PropQueryProofs ReadOps SaidReads RenameReads SaidProofs TwinProofs CrlfDocs RenameDocs SpecProgram SpecRenamed RenamedRun.

Section Pair.
  Context (r q o : text -> text) (Hr : renaming r) (Hq : renaming q) (Ho : observation o) (L1 L2 : list (list (nat * option text) * said)) (HE : told_as r o L1 = told_as q o L2) (d1 d2 : text)
    (T1 : tells d1 L1) (T2 : tells d2 L2).
  Lemma near_heaps loc1 rk1 src1 c1 : parse_context d1 loc1 rk1 src1 = Ok c1 -> forall loc2 rk2 src2, exists c2, parse_context d2 loc2 rk2 src2 = Ok c2 /\ near d1 d2 r q o (c_heap c1) (c_heap c2).
  Proof.
    intros HP loc2 rk2 src2. apply parse_ok in HP as (st & lc & h & Ha & Hres & ->). pose proof (RenameDocs.analysed_both r q o Hr Hq L1 L2 HE d1 d2 T1 T2) as B. rewrite Ha in B.
    destruct (analyze d2) as [s2 lc2|? ? ?| |] eqn:E2; try contradiction. destruct B as (Bh & Bs & Bn).
    pose proof (RenameDocs.resolved_both r q o Hr Hq d1 d2 _ _ _ _ _ _ Bh Bs Bn) as R. rewrite Hres in R. destruct (resolve (a_heap s2) (a_cs s2) (a_cn s2)) as [k2| | |] eqn:Er; try contradiction.
    eexists. split; [apply parse_ok; exists s2, lc2, k2; split; [exact E2|split; [exact Er|reflexivity]]|]. exact R.
  Qed.
  Theorem paired_programs loc1 rk1 src1 c1 : parse_context d1 loc1 rk1 src1 = Ok c1 -> forall loc2 rk2 src2, exists c2, parse_context d2 loc2 rk2 src2 = Ok c2 /\
    forall A A' (R : A -> A' -> Prop) m m', paired r q o R m m' -> forall i, outcomes r q c1 c2 R (snd (m (opened c1 i))) (snd (m' (opened c2 i))).
  Proof.
    intros HP1 loc2 rk2 src2. destruct (near_heaps loc1 rk1 src1 c1 HP1 loc2 rk2 src2) as (c2 & HP2 & HS). exists c2. split; [exact HP2|].
    intros A A' R m m' Hm i. apply (paired_twin c1 c2 r q o Hr Hq Ho R m m' Hm). rewrite <- (proj1 (input_is HP1)), <- (proj1 (input_is HP2)) in HS.
    split; cbn; [destruct i; reflexivity|exact HS|eapply start_ok; exact HP1|eapply start_ok; exact HP2].
  Qed.
End Pair.

(** * Line endings *)
Lemma told_returns L : told_as same_text strip (map (fun cx => (fst cx, with_returns (snd cx))) L) = told_as same_text strip L.
Proof.
  unfold told_as. rewrite map_map. apply map_ext. intros [c x]. cbn [fst snd]. f_equal. destruct x as [| | | | | |k [v|]| |]; try reflexivity. cbn. now rewrite strip_returns.
Qed.
Theorem crlf_programs t loc1 rk1 src1 c1 : parse_context t loc1 rk1 src1 = Ok c1 -> forall loc2 rk2 src2, exists c2, parse_context (crlf t) loc2 rk2 src2 = Ok c2 /\
  forall A A' (R : A -> A' -> Prop) m m', paired same_text same_text strip R m m' -> forall i, outcomes same_text same_text c1 c2 R (snd (m (opened c1 i))) (snd (m' (opened c2 i))).
Proof.
  intro HP. destruct (every_document t loc1 rk1 src1 c1 HP) as (L & HT & _).
  apply (paired_programs same_text same_text strip same_text_renaming same_text_renaming strip_observation L (map (fun cx => (fst cx, with_returns (snd cx))) L)) with (d1 := t) (4 := HP);
    [symmetry; apply told_returns|assumption|]. apply tells_crlf. eauto.
Qed.

(** * Programs for the two documents *)
Definition the (f : found) : nat := match f with FObj x => x | _ => 0 end.
Definition tour (crew dave log frank hal nobody : text) : sM (list (option text) * option text * option text * found) :=
  let! s := query (Some KSection) 0 (Some crew) None in
  let! l := query (Some KList) (the s) (Some dave) None in
  let! v := list_values (the l) string_loader true in
  let! g := query (Some KSection) (the s) (Some log) None in
  let! x := query (Some KField) (the g) (Some frank) None in
  let! w := value_of (the x) string_loader true in
  let! bad := attempt (query (Some KList) 0 (Some hal) None) in
  let! n := query None 0 (Some nobody) None in
  let! k := string_key (the x) in
  ret (v, w, match bad with Some _ => None | None => Some k end, n).
Definition ship_tour := tour (U "crew") (U "Dave") (U "log") (U "Frank") (U "HAL") (U "Cat").
Definition firm_tour := tour (U "dsfx") (U "Ebwf") (U "mph") (U "Gsbol") (U "IBM") (U "Dbu").
Definition toured (a a' : list (option text) * option text * option text * found) : Prop :=
  let '(v, w, k, n) := a in let '(v', w', k', n') := a' in Forall2 (maybe eq) v v' /\ maybe eq w w' /\ maybe (names next_letters same_text) k k' /\ found_as next_letters n = found_as same_text n'.
Lemma the_found r q f f' : found_as r f = found_as q f' -> the f = the f'.
Proof. destruct f, f'; cbn; try discriminate; try reflexivity. congruence. Qed.
Lemma string_alike t t' : reads same_text t t' -> loaded_alike eq (string_loader t) (string_loader t').
Proof. unfold reads, same_text. intros ->. now constructor. Qed.
Lemma tours : paired next_letters same_text same_text toured ship_tour firm_tour.
Proof.
  assert (forall a b c a' b' c' d e f d' e' f', asks next_letters same_text (Some a) (Some a') -> asks next_letters same_text (Some b) (Some b') -> asks next_letters same_text (Some c) (Some c') ->
    asks next_letters same_text (Some d) (Some d') -> asks next_letters same_text (Some e) (Some e') -> asks next_letters same_text (Some f) (Some f') -> paired next_letters same_text same_text toured (tour a b c d e f) (tour a' b' c' d' e' f')) as K.
  { intros. unfold tour. eapply d_bind; [now apply d_query|]. intros s s' Hs. rewrite <- (the_found _ _ _ _ Hs). eapply d_bind; [now apply d_query|]. intros l l' Hl. rewrite <- (the_found _ _ _ _ Hl).
    eapply d_bind; [apply d_values; exact string_alike|]. intros v v' Hv. eapply d_bind; [now apply d_query|]. intros g g' Hg. rewrite <- (the_found _ _ _ _ Hg).
    eapply d_bind; [now apply d_query|]. intros x x' Hx. rewrite <- (the_found _ _ _ _ Hx). eapply d_bind; [apply d_value; exact string_alike|]. intros w w' Hw.
    eapply d_bind; [apply d_attempt; now apply d_query|]. intros y y' Hy. eapply d_bind; [now apply d_query|]. intros n n' Hn. eapply d_bind; [apply d_string_key|]. intros k k' Hk.
    apply d_ret. unfold toured. repeat split; try assumption. destruct Hy; constructor; assumption. }
  apply K; vm_compute; reflexivity.
Qed.
Definition context_of (d : text) : ctx := match parse_context d en TextReporter None with Ok c => c | Raise _ => MkCtx d en TextReporter None [] [] 0 end.
Lemma toured_both : parse_context ship en TextReporter None = Ok (context_of ship) /\ parse_context firm en TextReporter None = Ok (context_of firm) /\
  snd (ship_tour (opened (context_of ship) None)) = Ok ([Some (U "1"); Some (U "2")], Some (U "onagain"), Some (U "Frank"), FMissing (Missing MKElement (Some (U "Cat")) (PObject 0))) /\
  snd (firm_tour (opened (context_of firm) None)) = Ok ([Some (U "1"); Some (U "2")], Some (U "onagain"), Some (U "Gsbol"), FMissing (Missing MKElement (Some (U "Dbu")) (PObject 0))).
Proof. split; [vm_compute; reflexivity|]. split; [vm_compute; reflexivity|]. split; vm_compute; reflexivity. Qed.
(** a program for either kind of line endings: the number of characters of a value that are not carriage returns *)
Definition letters (t : text) : lres nat := LOk (length (strip t)).
Definition count_in (s : text) : sM (option nat) := let! x := query (Some KSection) 0 (Some s) None in let! y := query (Some KField) (the x) (Some (U "text")) None in value_of (the y) letters true.
Lemma counting : paired same_text same_text strip (maybe eq) (count_in (U "notes")) (count_in (U "notes")).
Proof.
  unfold count_in. eapply d_bind; [now apply d_query|]. intros x x' Hx. rewrite <- (the_found _ _ _ _ Hx). eapply d_bind; [now apply d_query|]. intros y y' Hy. rewrite <- (the_found _ _ _ _ Hy).
  apply d_value. intros t t' Ht. unfold letters. red in Ht. rewrite Ht. now constructor.
Qed.
Lemma counted : snd (count_in (U "notes") (opened (context_of unix) None)) = Ok (Some 9) /\ snd (count_in (U "notes") (opened (context_of windows) None)) = Ok (Some 9).
Proof. split; vm_compute; reflexivity. Qed.
