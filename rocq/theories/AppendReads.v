(** AppendReads: the accessors look at the input only for the lines of multiline fields. *)
From Verif Require Import Base Types Messages HeapFacts Resolver Analyzer AnalyzerLoop ResolverFinal AppendRun SpecText AppendProofs ResolverComments Reporter Errors Context ReporterFacts ParseOutcome ReadOps ApiDoc.

Section Agree.
  Context (d dd : text).

  Definition okh (h : heap) : Prop := forall i, own_value d (hget h i) = own_value dd (hget h i).
  Definition agree {A} (m m' : hM A) : Prop := forall h, okh h -> m h = m' h /\ okh (fst (m h)).

  Lemma agree_ret {A} (a : A) : agree (ret a) (ret a).
  Proof. intros h H. now split. Qed.
  Lemma agree_raise {A} e : agree (raise e : hM A) (raise e).
  Proof. intros h H. now split. Qed.
  Lemma agree_lift {A} (r : res A) : agree (lift r) (lift r).
  Proof. intros h H. now split. Qed.
  Lemma agree_bind {A B} (m m' : hM A) (f f' : A -> hM B) : agree m m' -> (forall a, agree (f a) (f' a)) -> agree (mbind m f) (mbind m' f').
  Proof.
    intros Hm Hf h H. destruct (Hm h H) as [E K]. unfold mbind. rewrite <- E. destruct (m h) as [h1 [a|e]]; cbn [fst] in K.
    - apply Hf, K.
    - now split.
  Qed.
  Lemma agree_get : agree (get : hM heap) get.
  Proof. intros h H. now split. Qed.
  Lemma agree_node e : agree (hnode e) (hnode e).
  Proof. intros h H. now split. Qed.
  Lemma agree_set e f : (forall n i, own_value i (f n) = own_value i n) -> agree (hset e f) (hset e f).
  Proof.
    intros Hf h H. split; [reflexivity|]. intro i. cbn [hset fst]. rewrite hget_hupd. destruct (Nat.eqb e i && Nat.ltb i (length h))%bool; [rewrite !Hf|]; apply H.
  Qed.
  (** the value set may be read before *)
  Lemma agree_mapM {A B} (f f' : A -> hM B) l : (forall a, agree (f a) (f' a)) -> agree (mapM f l) (mapM f' l).
  Proof.
    intro H. induction l as [|a l IH]; cbn [mapM]; [apply agree_ret|]. apply agree_bind; [apply H|]. intro y. apply agree_bind; [exact IH|]. intro ys. apply agree_ret.
  Qed.

  Ltac go := repeat match goal with
    | |- agree (ret _) _ => apply agree_ret
    | |- agree (raise _) _ => apply agree_raise
    | |- agree (lift _) _ => apply agree_lift
    | |- agree get _ => apply agree_get
    | |- agree (hnode _) _ => apply agree_node
    | |- agree (hset _ _) _ => apply agree_set; intros; reflexivity
    | H : forall e, agree (?f e) (?g e) |- agree (?f _) (?g _) => apply H
    | |- agree (mapM _ _) (mapM _ _) => apply agree_mapM; intro
    | |- agree (mbind _ _) (mbind _ _) => apply agree_bind; [|intro]
    | |- agree (match ?x with _ => _ end) _ => destruct x
    end.

  Lemma agree_comment e : agree (comment e) (comment e).
  Proof. unfold comment. cbv zeta. go. Qed.
  Lemma agree_items f : forall e, agree (items f e) (items f e).
  Proof. induction f as [|f IH]; intro e; cbn [items]; cbv zeta; go. Qed.
  Lemma agree_entries f : forall e, agree (entries f e) (entries f e).
  Proof. induction f as [|f IH]; intro e; cbn [entries]; cbv zeta; go. Qed.
  Lemma agree_elements f : forall e, agree (elements f e) (elements f e).
  Proof. induction f as [|f IH]; intro e; cbn [elements]; cbv zeta; go. Qed.
  Lemma agree_value f : forall e, agree (value d f e) (value dd f e).
  Proof.
    induction f as [|f IH]; intro e; cbn [value]; [apply agree_raise|]. intros h H. unfold mbind, hnode.
    destruct (n_cvalue (hget h e)); [now apply agree_ret|]. destruct (n_mirror (hget h e)); [now apply IH|]. cbv zeta. rewrite H.
    apply (agree_bind (hset e (set_cvalue (Some (own_value dd (hget h e))))) _ (fun _ => ret (own_value dd (hget h e)))); [|intro; apply agree_ret|exact H].
    apply agree_set. reflexivity.
  Qed.
  Lemma agree_raw f : forall e, agree (raw d f e) (raw dd f e).
  Proof.
    induction f as [|f IH]; intro e; cbn [raw]; cbv zeta; go;
      first [apply agree_comment|apply agree_value|apply agree_items|apply agree_entries|apply agree_elements].
  Qed.
  Lemma agree_ask a : agree (do_ask d a) (do_ask dd a).
  Proof.
    unfold do_ask. cbv zeta. apply agree_bind; [apply agree_get|]. intro h. destruct a; go;
      first [apply agree_comment|apply agree_value|apply agree_items|apply agree_entries|apply agree_elements|apply agree_raw].
  Qed.
  Lemma after_agree hist : forall h, okh h -> after d hist h = after dd hist h /\ okh (after d hist h).
  Proof.
    induction hist as [|a hist IH]; intros h H; cbn [after]; [now split|]. destruct (agree_ask a h H) as [E K]. rewrite <- E. now apply IH.
  Qed.
  Lemma answered_agree hist a h : okh h -> answered d a (after d hist h) = answered dd a (after dd hist h).
  Proof. intro H. destruct (after_agree hist h H) as [E K]. unfold answered. rewrite <- E. now destruct (agree_ask a _ K) as [-> _]. Qed.
End Agree.

(** * Documents followed by further lines *)

Section Parsed.
  Context (d s : text).
  Local Notation dd := (d ++ nl :: s).

  Lemma bounded_okh h : (forall i, 0 < i < length h -> node_faithful d (hget h i)) -> n_type (hget h 0) <> MULTILINE_FIELD_BEGIN -> okh d dd h.
  Proof.
    intros Hf H0 i. unfold own_value. destruct (n_type (hget h i)) eqn:Et; try reflexivity. destruct (n_lines (hget h i)) as [[|l ls]|] eqn:El; try reflexivity.
    destruct (Nat.lt_ge_cases i (length h)) as [Hi|Hi]; [|unfold hget in Et; rewrite nth_overflow in Et by assumption; discriminate].
    destruct i as [|i]; [contradiction|]. destruct (Hf (S i) ltac:(lia)) as (_ & _ & _ & _ & _ & Hh). f_equal.
    assert (In (last ls l) (hanging (hget h (S i)))) as Hin.
    { apply hang_lines. rewrite El. cbn [olist]. clear. revert l. induction ls as [|x ls IH]; intro l; [now left|]. destruct ls as [|y ls]; [right; now left|]. right.
      change (last (x :: y :: ls) l) with (last (y :: ls) l). assert (last (y :: ls) l = last (y :: ls) x) as -> by (clear; revert y; induction ls as [|z ls IH]; intro y; [reflexivity|apply IH]). apply IH. }
    eapply Forall_forall in Hh; [|exact Hin]. destruct Hh as [(b & e & Hr & Hbe & Hel & _) _].
    symmetry. assert (snd (line_range (l_ranges (last ls l))) <= length d) as Hb by (unfold line_range; rewrite Hr; exact Hel).
    apply (sub_more d s (_, _)). exact Hb.
  Qed.

  Lemma blank_parse loc rk src c : forallb is_space s = true -> parse_context d loc rk src = Ok c ->
    exists c', parse_context dd loc rk src = Ok c' /\ c_heap c' = c_heap c /\ c_meta c' = c_meta c /\
      forall hist a, answered dd a (after dd hist (c_heap c')) = answered d a (after d hist (c_heap c)).
  Proof.
    intros Hb HP. pose proof (wf_parse d loc rk src c HP) as Hwf. pose proof HP as HP'. apply parse_ok in HP' as (st & lc & h & Ha & Hr & ->).
    destruct (blank_end d s st lc Ha Hb) as (st' & lc' & Ha' & E1 & E2 & E3 & E4). eexists. split.
    - apply parse_ok. do 3 eexists. split; [exact Ha'|]. rewrite E1, E3, E4. split; [exact Hr|reflexivity].
    - cbn. split; [reflexivity|]. split; [exact E2|]. intros hist a. symmetry. apply answered_agree. apply bounded_okh; [exact (wf_text _ Hwf)|].
      pose proof (doc_root _ (doc_of_parse d loc rk src _ HP)) as (_ & E & _). cbn [c_heap] in E. rewrite E. discriminate.
  Qed.
End Parsed.
