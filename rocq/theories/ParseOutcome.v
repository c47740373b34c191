(** ParseOutcome: the possible outcomes of parsing. *)
From Coq Require Import Relations.
From Verif Require Import Base Types Scan Messages Analyzer TokenStep HeapFacts SpecRun AnalyzerInv AnalyzerLoop SpecText AnalyzerText
  SpecTree AnalyzerTree AnalyzerFinal AnalyzerBounds AnalyzerCopies Resolver SpecResolve ResolverIndex ResolverFields ResolverSections
  ResolverFinal ResolverComments Reporter Errors Context ReporterFacts ReporterTags ParseErrors ParseContext.

(** * Texts and selections of errors *)

Lemma build_ok t s sel x : build t s sel = Ok x -> t = Ok (er_text x) /\ s = Ok (er_snippet x) /\ sel = Ok (er_selection x).
Proof.
  unfold build. destruct t as [t|]; [|discriminate]. destruct s as [s|]; [|discriminate]. destruct sel as [sel|]; [|discriminate].
  cbn [bind]. intros [= <-]. auto.
Qed.
Lemma bind_ok {A B} (x : res A) (f : A -> res B) y : bind x f = Ok y -> exists a, x = Ok a /\ f a = Ok y.
Proof. destruct x; [|discriminate]. intro H. eauto. Qed.

(** * Cycles *)

Lemma chain_tail sec h l e : chain sec h l e -> forall l1 l2, l = l1 ++ l2 -> chain sec h l2 e.
Proof.
  intros Hc l1. revert l Hc. induction l1 as [|y l1 IH]; intros l Hc l2 ->; [assumption|]. destruct Hc as [_ Hc]. eauto.
Qed.
Lemma chain_reach sec h : forall l x e, chain sec h (x :: l) e -> clos_trans nat (depends sec h) x e.
Proof.
  induction l as [|y l IH]; intros x e [Hd Hc]; [now apply t_step|]. cbn in Hd. eapply t_trans; [apply t_step; exact Hd|now apply IH].
Qed.
Lemma chain_cycle sec h l e : In e l -> chain sec h l e -> on_cycle sec h e.
Proof.
  intros Hin Hc. apply in_split in Hin as (l1 & l2 & ->). pose proof (chain_tail _ _ _ _ Hc l1 (e :: l2) eq_refl) as H. now apply chain_reach in H.
Qed.
Lemma chain_last_cycle sec h l e : In e l -> chain sec h l e -> on_cycle sec h (last l 0).
Proof.
  intros Hin Hc. apply in_split in Hin as (l1 & l2 & ->). pose proof (chain_tail _ _ _ _ Hc l1 (e :: l2) eq_refl) as H.
  assert (last (l1 ++ e :: l2) 0 = last (e :: l2) 0) as -> by (clear; induction l1 as [|y l1 IH]; [reflexivity|]; cbn [app]; rewrite <- IH; destruct (l1 ++ e :: l2) eqn:E; [destruct l1; discriminate|reflexivity]).
  clear Hc. destruct l2 as [|y l2 _] using rev_ind; [now apply chain_reach in H|].
  change (e :: l2 ++ [y]) with ((e :: l2) ++ [y]) in *. rewrite last_last.
  pose proof (chain_tail _ _ _ _ H (e :: l2) [y] eq_refl) as [Hy _]. cbn in Hy.
  assert (forall m x, chain sec h ((x :: m) ++ [y]) e -> clos_trans nat (depends sec h) x y) as G.
  { induction m as [|z m IH]; intros x [Hd Hc]; [now apply t_step|]. cbn in Hd. eapply t_trans; [apply t_step; exact Hd|]. now apply IH. }
  eapply t_trans; [apply t_step; exact Hy|]. now apply (G l2 e).
Qed.

(** * Outcomes *)

Section Outcome.
  Context (inp : text) (loc : locale) (rk : reporter_kind) (src : option text).
  Local Notation mk := (MkCtx inp loc rk src).

  (** what is wrong with the input *)
  Inductive fault : perr -> heap -> list leaf -> nat -> Prop :=
  | fault_line e st lc : analyze inp = AErr e st lc -> fault e (a_heap st) (a_meta st) lc
  | fault_copy e st lc h : analyze inp = AOk st lc -> resolve (a_heap st) (a_cs st) (a_cn st) = RErr e h -> fault e h (a_meta st) lc.

  Lemma parse_ok c : parse_context inp loc rk src = Ok c <->
    exists st lc h, analyze inp = AOk st lc /\ resolve (a_heap st) (a_cs st) (a_cn st) = ROk h /\ c = mk h (a_meta st) lc.
  Proof.
    unfold parse_context. destruct (analyze inp) as [st lc|e st lc| |] eqn:Ea.
    - pose proof (analysed _ _ _ Ea) as HA. destruct (a_cs st) as [|x cs] eqn:Es; [destruct (a_cn st) as [|x cn] eqn:En|].
      + pose proof (resolve_nothing _ _ _ HA eq_refl eq_refl) as Hr. split.
        * intros [= <-]. exists st, lc, (a_heap st). rewrite Es, En. auto.
        * intros (st' & lc' & h & [= <- <-] & Hr' & ->). rewrite Es, En, Hr in Hr'. injection Hr' as <-. reflexivity.
      + rewrite <- Es, <- En. clear. split.
        * destruct (resolve _ _ _) as [h|x' h| |] eqn:Hr; try discriminate; [|destruct (parse_error _ _); discriminate].
          intros [= <-]. eauto 6.
        * intros (st' & lc' & h & [= <- <-] & Hr' & ->). now rewrite Hr'.
      + rewrite <- Es. clear. split.
        * destruct (resolve _ _ _) as [h|x' h| |] eqn:Hr; try discriminate; [|destruct (parse_error _ _); discriminate].
          intros [= <-]. eauto 6.
        * intros (st' & lc' & h & [= <- <-] & Hr' & ->). now rewrite Hr'.
    - split; [destruct (parse_error _ _); discriminate|]. intros (? & ? & ? & H & _). discriminate.
    - split; [discriminate|]. intros (? & ? & ? & H & _). discriminate.
    - split; [discriminate|]. intros (? & ? & ? & H & _). discriminate.
  Qed.

  Lemma parse_raise e : parse_context inp loc rk src = Raise e <->
    (exists p h meta lc, fault p h meta lc /\
       match parse_error (mk h meta lc) p with Ok x => e = ParseError x | Raise x => e = x end) \/
    (e = KeyError /\ exists st lc, analyze inp = AOk st lc /\ resolve (a_heap st) (a_cs st) (a_cn st) = RKey).
  Proof.
    unfold parse_context. destruct (analyze inp) as [st lc|p st lc| |] eqn:Ea.
    - pose proof (analysed _ _ _ Ea) as HA. pose proof (resolve_spec _ _ _ HA) as Hsp.
      assert (match a_cs st, a_cn st with
              | [], [] => Ok (mk (a_heap st) (a_meta st) lc)
              | _, _ => match resolve (a_heap st) (a_cs st) (a_cn st) with
                        | ROk h => Ok (mk h (a_meta st) lc)
                        | RErr e h => match parse_error (mk h (a_meta st) lc) e with Ok x => Raise (ParseError x) | Raise x => Raise x end
                        | RKey => Raise KeyError | RFuel => Raise Fuel end end =
              match resolve (a_heap st) (a_cs st) (a_cn st) with
                        | ROk h => Ok (mk h (a_meta st) lc)
                        | RErr e h => match parse_error (mk h (a_meta st) lc) e with Ok x => Raise (ParseError x) | Raise x => Raise x end
                        | RKey => Raise KeyError | RFuel => Raise Fuel end) as ->.
      { destruct (a_cs st) as [|x cs] eqn:Es; [destruct (a_cn st) as [|x cn] eqn:En|]; try reflexivity.
        now rewrite (resolve_nothing _ _ _ HA eq_refl eq_refl). }
      destruct (resolve (a_heap st) (a_cs st) (a_cn st)) as [h|p h| |] eqn:Hr; [| | |contradiction].
      + split; [discriminate|]. intros [(p & h' & meta & lc' & Hf & _)|(_ & st' & lc' & Ha & Hk)].
        * inversion Hf as [? ? ? H|? st' ? ? H1 H2]; subst; rewrite Ea in *; [discriminate|]. injection H1 as <- <-. rewrite Hr in H2. discriminate.
        * injection Ha as <- <-. rewrite Hr in Hk. discriminate.
      + split.
        * intro H. left. exists p, h, (a_meta st), lc. split; [econstructor; eassumption|]. destruct (parse_error _ _); congruence.
        * intros [(p' & h' & meta & lc' & Hf & H)|(_ & st' & lc' & Ha & Hk)].
          -- inversion Hf as [? ? ? Hx|? st' ? ? H1 H2]; subst; rewrite Ea in *; [discriminate|]. injection H1 as <- <-. rewrite Hr in H2. injection H2 as <- <-.
             destruct (parse_error _ _); congruence.
          -- injection Ha as <- <-. rewrite Hr in Hk. discriminate.
      + split.
        * intros [= <-]. right. split; [reflexivity|]. eauto.
        * intros [(p' & h' & meta & lc' & Hf & H)|(-> & _)]; [|reflexivity].
          inversion Hf as [? ? ? Hx|? st' ? ? H1 H2]; subst; rewrite Ea in *; [discriminate|]. injection H1 as <- <-. rewrite Hr in H2. discriminate.
    - split.
      + intro H. left. exists p, (a_heap st), (a_meta st), lc. split; [now constructor|]. destruct (parse_error _ _); congruence.
      + intros [(p' & h' & meta & lc' & Hf & H)|(_ & st' & lc' & Ha & Hk)]; [|discriminate].
        inversion Hf as [? st' ? Hx|? st' ? ? H1 H2]; subst; rewrite Ea in *; [|discriminate]. injection Hx as <- <- <-. destruct (parse_error _ _); congruence.
    - exfalso. pose proof (analyze_reach inp) as G. rewrite Ea in G. exact G.
    - exfalso. pose proof (analyze_reach inp) as G. rewrite Ea in G. exact G.
  Qed.

  Lemma wf_parse c : parse_context inp loc rk src = Ok c -> WF c.
  Proof.
    intro H. apply parse_ok in H as (st & lc & h & Ha & Hr & ->). pose proof (analysed _ _ _ Ha) as HA.
    pose proof (resolve_spec _ _ _ HA) as Hsp. rewrite Hr in Hsp. pose proof (resolve_comments (a_heap st) (a_cs st) (a_cn st)) as Hc.
    rewrite Hr in Hc. eapply wf_resolved; [now apply wf_analysed|now apply (analysed_comments inp st lc)|apply Hsp|exact Hc].
  Qed.

  Lemma wf_fault p h meta lc : fault p h meta lc -> WF (mk h meta lc).
  Proof.
    intro H. destruct H as [e st lc H|e st lc h Ha Hr].
    - now apply wf_stopped with (loc := loc) (rk := rk) (src := src) in H as (st0 & _ & _ & _ & H).
    - pose proof (analysed _ _ _ Ha) as HA. pose proof (resolve_spec _ _ _ HA) as Hsp. rewrite Hr in Hsp.
      pose proof (resolve_comments (a_heap st) (a_cs st) (a_cn st)) as Hc. rewrite Hr in Hc.
      eapply wf_resolved; [now apply wf_analysed|now apply (analysed_comments inp st lc)|apply Hsp|exact Hc].
  Qed.

  (** reporting a fault succeeds, with the exceptions given *)
  Lemma fault_prints p h meta lc : fault p h meta lc ->
    (exists st e prev, analyze inp = AOk st lc /\ p = PCyclic e prev /\ In e prev /\ chain true (a_heap st) prev e /\
       n_template (hget (a_heap st) e) = None /\ n_template (hget (a_heap st) (last prev 0)) = None /\
       parse_error (mk h meta lc) p = Raise UnboundLocalError) \/
    prints (mk h meta lc) (parse_error (mk h meta lc) p).
  Proof.
    intro Hf. pose proof (wf_fault _ _ _ _ Hf) as Hwf. destruct Hf as [e st lc H|e st lc h Ha Hr].
    - right. now apply analysis_prints.
    - pose proof (analysed _ _ _ Ha) as HA. pose proof (resolve_spec _ _ _ HA) as Hsp. rewrite Hr in Hsp. destruct Hsp as [Hce Ht].
      destruct (resolution_prints inp loc rk src _ _ _ (a_meta st) lc e h HA Hce Ht Hwf) as [(e' & prev & H1 & H2 & H3 & H4 & H5 & H6)|H]; [left|now right].
      exists st, e', prev. auto 10.
  Qed.

  Theorem parse_outcome :
    match parse_context inp loc rk src with
    | Ok _ => True
    | Raise (ParseError _) => True
    | Raise KeyError => rk = TerminalReporter \/
        exists st lc, analyze inp = AOk st lc /\ (leads_to_dangling false (a_heap st) \/ leads_to_dangling true (a_heap st))
    | Raise UnboundLocalError => exists st lc a b, analyze inp = AOk st lc /\
        on_cycle true (a_heap st) a /\ n_template (hget (a_heap st) a) = None /\
        on_cycle true (a_heap st) b /\ n_template (hget (a_heap st) b) = None /\ depends true (a_heap st) b a
    | Raise _ => False
    end.
  Proof.
    destruct (parse_context inp loc rk src) as [c|e] eqn:Hp; [exact I|]. apply parse_raise in Hp as [(p & h & meta & lc & Hf & He)|(-> & st & lc & Ha & Hr)].
    - destruct (fault_prints _ _ _ _ Hf) as [(st & e' & prev & Ha & -> & Hin & Hc & H1 & H2 & H3)|[[x Hx]|[Hk Hx]]].
      + rewrite H3 in He. subst e. exists st, lc, e', (last prev 0). split; [assumption|].
        split; [now apply chain_cycle with prev|]. split; [assumption|]. split; [eapply chain_last_cycle; eassumption|]. split; [assumption|].
        destruct prev as [|y l _] using rev_ind; [destruct Hin|]. rewrite last_last. now destruct (chain_tail _ _ _ _ Hc l [y] eq_refl) as [Hd _].
      + rewrite Hx in He. now subst e.
      + rewrite Hx in He. subst e. now left.
    - right. exists st, lc. split; [assumption|]. pose proof (resolve_spec _ _ _ (analysed _ _ _ Ha)) as Hsp. now rewrite Hr in Hsp.
  Qed.
End Outcome.
