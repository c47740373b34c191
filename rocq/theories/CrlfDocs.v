(** CrlfDocs: documents with carriage returns before the line feeds (C59). *)
From Verif Require Import Base Types Analyzer Scan SpecText SpecSaid SpecBroken SpecEndings CrlfProofs SaidRun SaidResolve SaidLoop CrlfRun Resolver Reporter Errors Context ReadOps Messages ParseOutcome SaidReads SpecReturns CrlfReads SaidProofs BrokenLoop SaidExamples.

Section Doc.
  Context (t : text) (l : list said) (Hl : says t 0 l).
  Local Notation t' := (crlf t).

  Lemma says_too : says t' 0 (map with_returns l).
  Proof. apply (says_crlf t 0 l Hl). split; [intros _; reflexivity|lia]. Qed.
  Lemma analysed_near : match analyze t, analyze t' with
    | AOk s1 _, AOk s2 _ => near t t' (a_heap s1) (a_heap s2) /\ a_cs s1 = a_cs s2 /\ a_cn s1 = a_cn s2
    | AErr p _ _, AErr q _ _ => skin_err p = skin_err q
    | _, _ => False
    end.
  Proof.
    pose proof (analyze_says t l Hl) as A1. pose proof (analyze_says t' _ says_too) as A2. pose proof (arun_returns l) as E. unfold analysed_as in A1, A2.
    destruct (arun init_ast l) as [a1|e1], (arun init_ast (map with_returns l)) as [a2|e2]; cbn [bare_out] in E; try discriminate; injection E as E.
    - destruct (analyze t); try contradiction. destruct (analyze t'); try contradiction. destruct A1 as (B1 & B2 & B3), A2 as (C1 & C2 & C3). unfold near. repeat split; congruence.
    - subst e2. destruct (analyze t); try contradiction. destruct (analyze t'); try contradiction. congruence.
  Qed.
  Lemma resolved_near h1 h2 cs cn : near t t' h1 h2 -> match resolve h1 cs cn, resolve h2 cs cn with
    | ROk k1, ROk k2 => near t t' k1 k2
    | RErr p k1, RErr q k2 => p = q
    | RKey, RKey | RFuel, RFuel => True
    | _, _ => False
    end.
  Proof.
    intro H. pose proof (SaidResolve.resolve_hom t h1 cs cn) as R1. pose proof (SaidResolve.resolve_hom t' h2 cs cn) as R2.
    pose proof (CrlfRun.resolve_hom (skins t h1) cs cn) as S1. pose proof (CrlfRun.resolve_hom (skins t' h2) cs cn) as S2. red in H. rewrite H in S1. rewrite S1, R1, R2 in S2. unfold near.
    destruct (resolve h1 cs cn), (resolve h2 cs cn); cbn in S2; try discriminate; try exact I; now injection S2.
  Qed.
  Lemma crlf_parsed loc rk src c1 : parse_context t loc rk src = Ok c1 -> exists c2, parse_context t' loc rk src = Ok c2 /\
    forall hist a, same_but_returns a (answered t a (after t hist (c_heap c1))) (answered t' a (after t' hist (c_heap c2))).
  Proof.
    intro HP. apply parse_ok in HP as (st & lc & h & Ha & Hr & ->). pose proof analysed_near as B. rewrite Ha in B. destruct (analyze t') as [s2 lc2|? ? ?| |] eqn:E2; try contradiction.
    destruct B as (Bh & Bs & Bn). rewrite Bs, Bn in Hr. pose proof (resolved_near _ _ (a_cs s2) (a_cn s2) Bh) as R. rewrite Hr in R. destruct (resolve (a_heap s2) (a_cs s2) (a_cn s2)) as [k2| | |] eqn:Er; try contradiction.
    eexists. split; [apply parse_ok; exists s2, lc2, k2; split; [exact E2|split; [exact Er|reflexivity]]|]. cbn [c_heap]. intros hist a. now apply answered_near.
  Qed.
  Lemma crlf_unparsed loc rk src c2 : parse_context t' loc rk src = Ok c2 -> exists c1, parse_context t loc rk src = Ok c1.
  Proof.
    intro HP. apply parse_ok in HP as (st & lc & h & Ha & Hr & ->). pose proof analysed_near as B. rewrite Ha in B. destruct (analyze t) as [s2 lc2|? ? ?| |] eqn:E2; try contradiction.
    destruct B as (Bh & Bs & Bn). rewrite <- Bs, <- Bn in Hr. pose proof (resolved_near _ _ (a_cs s2) (a_cn s2) Bh) as R. rewrite Hr in R. destruct (resolve (a_heap s2) (a_cs s2) (a_cn s2)) as [k2| | |] eqn:Er; try contradiction.
    eexists. apply parse_ok. exists s2, lc2, k2. split; [exact E2|split; [exact Er|reflexivity]].
  Qed.
  Lemma crlf_faulty p h meta lc : fault t p h meta lc -> exists q h' meta' lc', fault t' q h' meta' lc' /\ same_complaint p q.
  Proof.
    intro F. pose proof analysed_near as B. destruct F as [e st lc Ha|e st lc h Ha Hr]; rewrite Ha in B; destruct (analyze t') as [s2 lc2|e2 s2 lc2| |] eqn:E2; try contradiction.
    - do 4 eexists. split; [apply fault_line; exact E2|]. now apply same_complaint_skin.
    - destruct B as (Bh & Bs & Bn). rewrite Bs, Bn in Hr. pose proof (resolved_near _ _ (a_cs s2) (a_cn s2) Bh) as R. rewrite Hr in R. destruct (resolve (a_heap s2) (a_cs s2) (a_cn s2)) as [|q k2| |] eqn:Er; try contradiction.
      subst q. do 4 eexists. split; [eapply fault_copy; [exact E2|exact Er]|]. now apply same_complaint_skin.
  Qed.
End Doc.

Theorem crlf_document t loc rk src c1 : parse_context t loc rk src = Ok c1 -> exists c2, parse_context (crlf t) loc rk src = Ok c2 /\
  forall hist a, same_but_returns a (answered t a (after t hist (c_heap c1))) (answered (crlf t) a (after (crlf t) hist (c_heap c2))).
Proof.
  intro HP. destruct (parse_ok t loc rk src c1) as [K _]. destruct (K HP) as (st & lc & h & Ha & _). destruct (analyze_said t st lc Ha) as (l & Hl). now apply (crlf_parsed t l).
Qed.
Theorem crlf_accepted t loc rk src c2 : parse_context (crlf t) loc rk src = Ok c2 -> exists c1, parse_context t loc rk src = Ok c1.
Proof.
  intro HP. destruct (parse_ok (crlf t) loc rk src c2) as [K _]. destruct (K HP) as (st & lc & h & Ha & _). destruct (analyze_said _ st lc Ha) as (l' & Hl').
  destruct (says_back t 0 l' Hl' 0) as (l & Hl & _); [split; [intros _; reflexivity|lia]|]. now apply (crlf_unparsed t l Hl loc rk src c2).
Qed.
Theorem crlf_faults t p h meta lc : fault t p h meta lc -> exists q h' meta' lc', fault (crlf t) q h' meta' lc' /\ same_complaint p q.
Proof.
  destruct (says_or_breaks t (length t) 0 ltac:(lia)) as [(l & Hl)|(l & b & Hl)]; [now apply (crlf_faulty t l Hl)|]. intro F.
  assert (breaks (crlf t) 0 (map with_returns l) b) as Hl' by (apply (breaks_crlf t 0 l b Hl); split; [intros _; reflexivity|lia]).
  destruct (analyze_breaks t l b Hl) as (p0 & s1 & c1 & A1 & P1). destruct (analyze_breaks _ _ b Hl') as (q & s2 & c2 & A2 & P2).
  do 4 eexists. split; [apply fault_line; exact A2|]. apply same_complaint_skin. destruct F as [e st lc Ha|e st lc h Ha Hr]; [|congruence]. replace e with p0 by congruence. rewrite P1, P2.
  pose proof (arun_returns l) as E. destruct (arun init_ast l) as [a|x], (arun init_ast (map with_returns l)) as [a'|x']; cbn [bare_out] in E; try discriminate; [|now injection E as ->].
  assert (length (a_heap a) = length (a_heap a')) as El by (rewrite <- (bares_length (a_heap a)), <- (bares_length (a_heap a')); f_equal; unfold bare_ast in E; congruence).
  cbn [broken_err]. destruct b; [reflexivity|]. now rewrite El.
Qed.

Theorem crlf_exact t L : tells t L -> Forall (fun cx => no_block (snd cx)) L -> forall loc rk src c1, parse_context t loc rk src = Ok c1 ->
  exists c2, parse_context (crlf t) loc rk src = Ok c2 /\
    forall hist a, answered (crlf t) a (after (crlf t) hist (c_heap c2)) = answered t a (after t hist (c_heap c1)).
Proof.
  intros HL HF. apply same_document with (L := L); [assumption|]. apply tells_crlf. exists L. split; [assumption|]. clear HL. symmetry.
  induction HF as [|[c x] L' Hx _ IH]; [reflexivity|]. cbn [map fst snd]. rewrite IH. f_equal. f_equal. cbn [snd] in Hx. destruct x as [| | | | | |k [v|]| |]; try reflexivity. destruct Hx.
Qed.

(** * A document *)
Definition unix : text := U "> by hand
author: Ann
# notes
-- text
one
  two
-- text
copied < text
".
Definition windows : text := Eval vm_compute in crlf unix.
Definition asked (d : text) (a : ask) : option (res answer) :=
  match parse_context d en HtmlReporter None with Ok c => Some (answered d a (c_heap c)) | Raise _ => None end.
Lemma windows_read : windows = crlf unix /\
  asked unix (AskValue 1) = Some (Ok (AnsText (Some (U "Ann")))) /\ asked windows (AskValue 1) = Some (Ok (AnsText (Some (U "Ann")))) /\
  asked unix (AskComment 1) = Some (Ok (AnsText (Some (U "by hand")))) /\ asked windows (AskComment 1) = Some (Ok (AnsText (Some (U "by hand")))) /\
  asked unix (AskValue 4) = Some (Ok (AnsText (Some (U "one" ++ [nl] ++ U "  two")))) /\
  asked windows (AskValue 4) = Some (Ok (AnsText (Some (U "one" ++ [cr; nl] ++ U "  two" ++ [cr])))).
Proof. repeat split; vm_compute; reflexivity. Qed.
(** without a multiline field *)
Definition short : text := U "> by hand
author: Ann
| Lee
list:
- 1
".
Definition short_said : list (list (nat * option text) * said) :=
  Eval vm_compute in match reading 40 short 0 with Some l => noted [] l | None => [] end.
Lemma short_read : tells short short_said /\ Forall (fun cx => no_block (snd cx)) short_said /\ short_said <> [] /\ crlf short <> short /\ asked (crlf short) (AskRaw 0) = asked short (AskRaw 0) /\ asked short (AskRaw 0) <> None.
Proof.
  split; [|split; [|split; [|split; [|split]]]].
  - apply (tells_by 40 short (match reading 40 short 0 with Some l => l | None => [] end)); vm_compute; reflexivity.
  - repeat constructor.
  - discriminate.
  - intro H. apply (f_equal (@length _)) in H. vm_compute in H. discriminate.
  - vm_compute. reflexivity.
  - vm_compute. discriminate.
Qed.
Definition size (r : option (res answer)) : nat := match r with Some (Ok (AnsText (Some v))) => length v | _ => 0 end.
Lemma size_differs t a m n : size (asked t a) = S m -> size (asked (crlf t) a) = n -> S m <> n -> exists loc rk src c1 c2, parse_context t loc rk src = Ok c1 /\ parse_context (crlf t) loc rk src = Ok c2 /\
  answered (crlf t) a (c_heap c2) <> answered t a (c_heap c1).
Proof.
  intros R1 R2 Hn. unfold asked in R1, R2. destruct (parse_context t en HtmlReporter None) as [c1|] eqn:E1; [|discriminate].
  destruct (crlf_document t en HtmlReporter None c1 E1) as (c2 & E2 & _). rewrite E2 in R2. exists en, HtmlReporter, None, c1, c2. split; [assumption|]. split; [assumption|].
  intro K. rewrite K in R2. congruence.
Qed.
Lemma windows_differ : exists t loc rk src c1 c2 a, parse_context t loc rk src = Ok c1 /\ parse_context (crlf t) loc rk src = Ok c2 /\
  answered (crlf t) a (c_heap c2) <> answered t a (c_heap c1).
Proof.
  destruct (size_differs unix (AskValue 4) 8 11) as (loc & rk & src & c1 & c2 & H); [vm_compute; reflexivity|vm_compute; reflexivity|discriminate|].
  exists unix, loc, rk, src, c1, c2, (AskValue 4). exact H.
Qed.
