(** ResolverFinal: what resolving the copies of an analysed document gives. *)
From Coq Require Import Relations.
From Verif Require Import Base Types Scan Analyzer TokenStep HeapFacts AnalyzerInv AnalyzerLoop SpecTree AnalyzerTree
  AnalyzerFinal AnalyzerCopies Resolver SpecResolve ResolverIndex ResolverFields ResolverSections.

(** * Cycles *)

Lemma acc_no_cycle {A} (R : A -> A -> Prop) x : Acc (fun a b => R b a) x -> ~ clos_trans A R x x.
Proof.
  intro H. induction H as [x _ IH]. intro Hc.
  assert (exists y, R x y /\ clos_trans A R y y) as (y & Hxy & Hy).
  { apply clos_trans_t1n in Hc. inversion Hc as [z Hz|z w Hz Hw]; subst.
    - exists x. split; [assumption|now apply t_step].
    - exists z. split; [assumption|]. apply clos_t1n_trans in Hw. eapply t_trans; [exact Hw|now apply t_step]. }
  now apply (IH y Hxy).
Qed.

Lemma rt_step_t {A} (R : A -> A -> Prop) x y z : clos_refl_trans A R x y -> R y z -> clos_trans A R x z.
Proof.
  intros H Hz. apply clos_rt_rt1n in H. induction H as [|x y w Hxy Hyw IH]; [now apply t_step|].
  eapply t_trans; [apply t_step; eassumption|auto].
Qed.

(** along a relation that increases except for some steps, a cycle has such a step *)
Lemma cycle_has {R P : nat -> nat -> Prop} : (forall x y, R x y -> P x y \/ x < y) ->
  forall x, clos_trans nat R x x -> exists a b, P a b /\ clos_trans nat R b b.
Proof.
  intros H x Hc.
  assert (forall x y, clos_trans nat R x y -> (exists a b, P a b /\ clos_refl_trans nat R x a /\ R a b /\ clos_refl_trans nat R b y) \/ x < y) as G.
  { clear x Hc. intros x y Hxy. apply clos_trans_t1n in Hxy. induction Hxy as [x y Hxy|x y z Hxy Hyz IH].
    - destruct (H _ _ Hxy) as [HP|HP]; [|auto]. left. exists x, y. split; [assumption|]. split; [apply rt_refl|]. split; [assumption|apply rt_refl].
    - apply clos_t1n_trans in Hyz. destruct (H _ _ Hxy) as [HP|HP].
      + left. exists x, y. split; [assumption|]. split; [apply rt_refl|]. split; [assumption|].
        clear - Hyz. induction Hyz; [now apply rt_step|eapply rt_trans; eassumption].
      + destruct IH as [(a & b & H1 & H2 & H3 & H4)|IH]; [|right; lia]. left. exists a, b. split; [assumption|].
        split; [eapply rt_trans; [apply rt_step; eassumption|assumption]|]. auto. }
  destruct (G x x Hc) as [(a & b & H1 & H2 & H3 & H4)|?]; [|lia]. exists a, b. split; [assumption|].
  assert (clos_refl_trans nat R b a) as Hba by (eapply rt_trans; eassumption).
  eapply rt_step_t; eassumption.
Qed.

Section Final.
  Context (h0 : heap) (cs cn : list (text * list nat)) (HA : Analysed h0 cs cn).
  Let HS := an_s _ _ _ HA.
  Let HD := an_d _ _ _ HA.

  Lemma consol_type t tn en n : consol t tn en = Some n ->
    n_type n = if itype_eqb (n_type en) EMPTY_ELEMENT then
                 match n_type tn with MULTILINE_FIELD_BEGIN | FIELD => FIELD | FIELDSET => FIELDSET | LIST => LIST | _ => EMPTY_ELEMENT end
               else n_type en.
  Proof.
    unfold consol. assert (n_type (inherited tn en) = n_type en) as E by (unfold inherited; destruct (n_comments tn), (n_comments en); reflexivity).
    rewrite E. destruct (n_type en) eqn:Et; cbn [itype_eqb]; destruct (n_type tn); try discriminate; intros [= <-]; cbn; congruence.
  Qed.

  Lemma final_means i n : final h0 i n -> means h0 i (n_type n) /\ (of_kind false (hget h0 i) -> is_element n).
  Proof.
    induction 1 as [i Hi|i t tn n Ht Hf [IH1 IH2] Hc].
    - split; [apply me_own; now left|auto].
    - assert (of_kind false (hget h0 t)) as Hkt by (destruct Ht as (k & _ & (_ & H & _) & _); exact H).
      specialize (IH2 Hkt). apply consol_type in Hc. cbn [n_type set_copy]. unfold is_element in IH2. split.
      + cbn. destruct (itype_eqb (n_type (hget h0 i)) EMPTY_ELEMENT) eqn:Ee.
        * assert (n_type (hget h0 i) = EMPTY_ELEMENT) as Ety by (destruct (n_type (hget h0 i)); cbn in Ee; congruence).
          assert (n_type n = match n_type tn with MULTILINE_FIELD_BEGIN => FIELD | _ => n_type tn end) as ->.
          { rewrite Hc. destruct (n_type tn); try contradiction; reflexivity. }
          exact (me_copy h0 i t (n_type tn) Ht Ety IH1).
        * rewrite Hc. apply me_own. right. intro E. rewrite E in Ee. discriminate.
      + intro Hk. unfold is_element. cbn. rewrite Hc. destruct (itype_eqb (n_type (hget h0 i)) EMPTY_ELEMENT) eqn:Ee.
        * destruct (n_type tn); try contradiction; exact I.
        * exact Hk.
  Qed.

  (** the faults for which resolution raises an error *)
  Inductive copy_error : perr -> Prop :=
  | ce_ambiguous c f e : ambiguous h0 c f e -> copy_error (PTwoTemplates c f e)
  | ce_element c : dangling false h0 c -> copy_error (PNonSectionNotFound c)
  | ce_section c : dangling true h0 c -> copy_error (PSectionNotFound c)
  | ce_cyclic sec e prev : In e prev -> chain sec h0 prev e -> copy_error (PCyclic e prev)
  | ce_entry x : stray_entry h0 x -> copy_error (PMissingFieldsetForEntryNode x)
  | ce_item x : stray_item h0 x -> copy_error (PMissingListForItemNode x).

  Lemma hd_opt_in o x : hd_opt o = Some x -> In x (olist o).
  Proof. destruct o as [[|y l]|]; try discriminate. intros [= ->]. now left. Qed.

  Lemma field_copy_error x : field_error h0 x -> copy_error x.
  Proof.
    intros [c Hc|e prev He Hc|e t n x' Ht Hf Hty Hx Hn|e t n x' Ht Hf Hty Hx Hn].
    - now apply ce_element.
    - eapply ce_cyclic; eassumption.
    - apply ce_entry. destruct (template_lt _ _ _ _ Ht) as [He _]. apply hd_opt_in in Hx. rewrite (d_entries _ HD e He) in Hx.
      apply in_ids in Hx as [Hx1 Hx2]. unfold entry_of, has_parent in Hx2. apply andb_true_iff in Hx2 as [Hx2 Hx3].
      destruct (n_parent (hget h0 x')) as [q|] eqn:Eq; [|discriminate]. apply Nat.eqb_eq in Hx2. subst q.
      exists e, t, (n_type n). apply final_means in Hf as [Hf _].
      split; [assumption|]. split; [assumption|]. split; [assumption|]. split; [|auto].
      apply ncls_entry. unfold is_cls in Hx3. now apply nclass_eqb_eq in Hx3.
    - apply ce_item. destruct (template_lt _ _ _ _ Ht) as [He _]. apply hd_opt_in in Hx. rewrite (d_items _ HD e He) in Hx.
      apply in_ids in Hx as [Hx1 Hx2]. unfold item_of, has_parent in Hx2. apply andb_true_iff in Hx2 as [Hx2 Hx3].
      destruct (n_parent (hget h0 x')) as [q|] eqn:Eq; [|discriminate]. apply Nat.eqb_eq in Hx2. subst q.
      exists e, t, (n_type n). apply final_means in Hf as [Hf _].
      split; [assumption|]. split; [assumption|]. split; [assumption|]. split; [|auto].
      apply ncls_item. unfold is_cls in Hx3. now apply nclass_eqb_eq in Hx3.
  Qed.
  Lemma section_copy_error x : section_error h0 x -> copy_error x.
  Proof. intros [c Hc|e prev He Hc]; [now apply ce_section|eapply ce_cyclic; eassumption]. Qed.

  Record Resolved (h : heap) : Prop := {
    rs_text : same_text h0 h;
    rs_elem : forall i, i < length h0 -> of_kind false (hget h0 i) -> final h0 i (hget h i);
    rs_other : forall i, ncls (hget h0 i) <> CSec -> ~ of_kind false (hget h0 i) -> hget h i = hget h0 i;
    rs_sec : forall i, ncls (hget h0 i) = CSec -> sheltered h0 i -> settled h0 i (cleared (hget h i));
    rs_type : forall i, ncls (hget h0 i) = CSec -> n_type (hget h i) = SECTION;
    rs_found : forall sec i, ~ dangling sec h0 i;
    rs_one : forall c f e, ~ ambiguous h0 c f e;
    rs_acyclic : forall sec i, ~ on_cycle sec h0 i;
    rs_good : forall i t, template_is true h0 i t -> Acc (fun x y => depends true h0 y x) t
  }.

  Lemma indexed_one sec tbl : indexed h0 cs cn sec tbl ->
    forall k c f e, copies sec h0 c k -> candidate sec h0 k f -> candidate sec h0 k e -> f = e.
  Proof.
    intros (_ & _ & I3 & I4) k c f e Hc Hf He. destruct (I4 _ _ Hc) as (tg & slot & Hin & _).
    destruct (I3 _ _ _ Hin) as (_ & _ & Hs). destruct slot as [t|]; [|now apply Hs in Hf].
    destruct Hs as [_ Hs]. now rewrite (Hs f Hf), (Hs e He).
  Qed.

  Theorem resolve_spec :
    match resolve h0 cs cn with
    | ROk h => Resolved h
    | RErr x h => copy_error x /\ same_text h0 h
    | RKey => leads_to_dangling false h0 \/ leads_to_dangling true h0
    | RFuel => False
    end.
  Proof.
    unfold resolve. pose proof (index_spec h0 cs cn HA) as Hi.
    destruct (index (S (length h0)) h0 (start_table cs, start_table cn) 0) as [[ts tn]|x h| |]; try contradiction.
    2:{ destruct Hi as (-> & sec & k & c & f & e & -> & H1 & H2 & H3 & H4). split; [|split; reflexivity].
        apply ce_ambiguous. exists sec, k. auto. }
    destruct Hi as [Hts Htn]. pose proof (fields_phase h0 cs cn HA tn Htn) as Hf.
    destruct (resolve_table PNonSectionNotFound _ tn h0) as [h1|x h1| |]; try contradiction.
    - destruct Hf as ((Hlen1 & Hd1) & [_ Htx1] & Hdg1).
      assert (forall i, ~ of_kind false (hget h0 i) -> hget h1 i = hget h0 i) as Hsec1.
      { intros i Hk. destruct (Nat.lt_ge_cases i (length h0)) as [Hi|Hi]; [now apply Hd1|].
        unfold hget. rewrite !nth_overflow by lia. reflexivity. }
      pose proof (sections_phase h0 cs cn HA h1 Hlen1 Htx1 Hsec1 ts Hts) as Hg.
      destruct (resolve_table PSectionNotFound _ ts h1) as [h|x h| |]; try contradiction.
      + destruct Hg as ((G1 & G2 & G3 & G4) & Hdg2 & Hgood). constructor; try assumption.
        * intros i Hi Hk. rewrite G2 by (apply kind_cls in Hk; congruence). now apply Hd1.
        * intros i H1 H2. rewrite G2 by assumption. now apply Hsec1.
        * intros i Hc. rewrite G3, Hsec1 by (now apply cls_not_elem). now apply (kind_cls true) in Hc.
        * intros [|] i; auto.
        * intros c f e (sec & k & Hc & Hf & He & Hne). apply Hne. destruct sec; [apply (indexed_one true ts Hts k c f e Hc Hf He)|apply (indexed_one false tn Htn k c f e Hc Hf He)].
        * intros [|] i Hc; unfold on_cycle in Hc.
          -- apply (@cycle_has _ (template_is true h0)) in Hc.
             ++ destruct Hc as (a & b & Hab & Hbb). revert Hbb. apply acc_no_cycle. eapply Hgood; eassumption.
             ++ intros x y [Ht|(_ & _ & Hy & Hp & _)]; [now left|right]. exact (SInv_parent_lt _ _ _ HS Hy Hp).
          -- revert Hc. apply acc_no_cycle.
             destruct (Nat.lt_ge_cases i (length h0)) as [Hi|Hi].
             ++ destruct (Hd1 i Hi) as [Ha _]. destruct (n_template (hget h0 i)) as [k|] eqn:Ek.
                ** assert (of_kind false (hget h0 i) \/ ~ of_kind false (hget h0 i)) as [Hk|Hk].
                   { unfold of_kind, is_element. destruct (n_type (hget h0 i)); auto. }
                   --- eapply final_acc. now apply Ha.
                   --- constructor. intros j [(k' & (_ & Hk' & _) & _)|[? _]]; [contradiction|discriminate].
                ** constructor. intros j [Hj|[? _]]; [|discriminate]. now apply template_copies in Hj.
             ++ constructor. intros j [Hj|[? _]]; [|discriminate]. apply template_lt in Hj. lia.
      + destruct Hg as [H1 H2]. split; [now apply section_copy_error|assumption].
      + right. exact Hg.
    - destruct Hf as [H1 H2]. split; [now apply field_copy_error|assumption].
    - left. exact Hf.
  Qed.

  (** without copies there is nothing to do *)
  Lemma resolve_nothing : cs = [] -> cn = [] -> resolve h0 cs cn = ROk h0.
  Proof.
    intros Ec En. unfold resolve. pose proof (index_spec h0 cs cn HA) as Hi.
    destruct (index (S (length h0)) h0 (start_table cs, start_table cn) 0) as [[ts tn]|x h| |]; try contradiction.
    - destruct Hi as [(E1 & _) (E2 & _)]. cbn in E1, E2. rewrite Ec in E1. rewrite En in E2.
      destruct ts; [|discriminate]. destruct tn; [|discriminate]. reflexivity.
    - exfalso. destruct Hi as (_ & sec & k & c & _ & _ & _ & Hc & _). apply (copies_assoc h0 cs cn HA) in Hc as (tg & H & _).
      destruct sec; cbn in H; rewrite ?Ec, ?En in H; discriminate.
  Qed.
End Final.
