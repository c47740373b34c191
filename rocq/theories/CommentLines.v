(** CommentLines: comments occupy single lines of the input and stand in order. *)
From Verif Require Import Base Types Scan Analyzer TokenStep ScanProofs ScanFacts StepProofs HeapFacts AnalyzerInv
  AnalyzerLoop StepChange SpecText AnalyzerText AnalyzerTiles AnalyzerLines Context SpecTree AnalyzerTree AnalyzerFinal AnalyzerBounds
  LookupDoc.

Definition singles (inp : text) (ls : list leaf) : Prop := Forall (fun l => single_line inp (leaf_line l)) ls.
Record CLines (inp : text) (st : ast) : Prop := {
  cl_heap : Forall (fun n => singles inp (olist (n_comments n)) /\ exists a b, ascending a (map leaf_line (olist (n_comments n))) b) (tl (a_heap st));
  cl_meta : singles inp (a_meta st);
  cl_open : singles inp (olist (a_comments st))
}.

Lemma CLines_step inp st st' : reach inp st -> AInv st -> CLines inp st -> a_index st < length inp -> step inp st = SOk st' -> CLines inp st'.
Proof.
  intros Hr HI [C1 C2 C3] Hlt Hs.
  destruct (step_change inp st st' HI ltac:(lia) Hs) as (t & e & Hsc & Hch).
  pose proof (scan_single inp _ _ _ Hsc) as Hsing.
  assert (a_heap st <> []) as Hne.
  { pose proof (s_len _ (i_s _ _ _ _ _ HI)). destruct (a_heap st); [cbn in *; lia|discriminate]. }
  assert (singles inp (flush (a_meta st) (a_comments st))) as Hf by (rewrite flush_eq; apply Forall_app; auto).
  destruct Hch as [n p g e' Hcr Hp Hg Hcore Hm Hc Hix Hee|c lf Hic Hlce Hh Hm Hc Hix Hli|op v -> Hh Hm Hc Hix Hli|q -> Hh Hm Hc Hix Hli].
  - constructor; [|now rewrite Hm|rewrite Hc; constructor].
    eapply Forall_core; [|apply map_core_tl; symmetry; exact Hcore|].
    + intros x y E. unfold core in E. assert (stat x = stat y) as Es by congruence. now rewrite (stat_comments _ _ Es).
    + apply app_upd_tl_Forall; auto.
      * assert (olist (n_comments n) = olist (a_comments st)) as -> by (rewrite (created_comments _ _ _ _ _ _ _ _ Hcr); reflexivity).
        split; [assumption|]. destruct (reach_order _ _ Hr) as [(mid & _ & O) _]. eauto.
      * intros x Hx. destruct (Hg x) as (G1 & _). now rewrite (stat_comments _ _ G1).
  - constructor; [|now rewrite Hm|rewrite Hc; constructor]. rewrite Hh. unfold hupd. destruct c as [|c]; [now rewrite tl_upd0|]. rewrite tl_upd. apply Forall_upd; auto.
    intros x Hx. now rewrite (stat_comments _ _ (benign_cont lf x)).
  - constructor; [now rewrite Hh|now rewrite Hm|]. rewrite Hc. apply Forall_app. split; [assumption|]. constructor; [exact Hsing|constructor].
  - constructor; [now rewrite Hh|now rewrite Hm|]. rewrite Hc. constructor.
Qed.
Theorem reach_clines inp st : reach inp st -> CLines inp st.
Proof.
  induction 1 as [|st st' Hr IH Hlt Hs]; [repeat constructor|]. apply CLines_step with st; auto. now apply reach_inv in Hr.
Qed.
