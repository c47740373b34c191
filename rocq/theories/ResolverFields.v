(** ResolverFields: resolving the copies of non-section elements. *)
From Coq Require Import Relations.
From Verif Require Import Base Types Scan Analyzer TokenStep HeapFacts AnalyzerInv AnalyzerLoop SpecTree AnalyzerTree
  AnalyzerFinal AnalyzerCopies Resolver SpecResolve ResolverIndex.

(** * What resolution never changes *)

Definition text_part (n : node) :=
  (n_line n, n_ranges n, n_key n, n_value n, n_parent n, (n_elements n, n_items n, n_entries n),
   (n_conts n, n_lines n, n_end n), n_template n, n_deep_copy n,
   (n_cvalue n, n_ccomment n, n_cels n, n_centries n, n_citems n), ncls n).

(** * Consolidation of two nodes *)

Definition inherited (tn en : node) : node :=
  match n_comments tn, n_comments en with Some cs, None => set_comments (Some cs) en | _, _ => en end.
Definition mirrored (t : nat) (tn en : node) : node :=
  set_mirror (Some (match n_mirror tn with Some m => m | None => t end)) en.

(** the copying element after consolidation with template [t], whose instruction is [tn] *)
Definition consol (t : nat) (tn en : node) : option node :=
  let en := inherited tn en in
  match n_type en with
  | EMPTY_ELEMENT =>
      match n_type tn with
      | MULTILINE_FIELD_BEGIN | FIELD => Some (mirrored t tn (set_type FIELD en))
      | FIELDSET => Some (mirrored t tn (set_type FIELDSET en))
      | LIST => Some (mirrored t tn (set_type LIST en))
      | _ => Some en
      end
  | FIELDSET =>
      match n_type tn with
      | FIELDSET => Some (set_extend (Some t) en)
      | FIELD | LIST | MULTILINE_FIELD_BEGIN => None
      | _ => Some en
      end
  | LIST =>
      match n_type tn with
      | LIST => Some (set_extend (Some t) en)
      | FIELD | FIELDSET | MULTILINE_FIELD_BEGIN => None
      | _ => Some en
      end
  | _ => Some en
  end.

Lemma upd_id {A} (l : list A) i f : (forall x, nth_error l i = Some x -> f x = x) -> upd l i f = l.
Proof.
  revert i. induction l as [|x l IH]; intros [|i] H; cbn; try reflexivity.
  - now rewrite (H x eq_refl).
  - now rewrite IH by (intros; now apply H).
Qed.
Lemma upd_upd {A} (l : list A) i f g : upd (upd l i f) i g = upd l i (fun x => g (f x)).
Proof. revert i. induction l as [|x l IH]; intros [|i]; cbn; try reflexivity. now rewrite IH. Qed.
Lemma upd_ext {A} (l : list A) i f g d : i < length l -> f (nth i l d) = g (nth i l d) -> upd l i f = upd l i g.
Proof.
  revert i. induction l as [|x l IH]; intros [|i] Hi H; cbn in *; try lia; try congruence.
  rewrite (IH i) by (try lia; assumption). reflexivity.
Qed.
Lemma hupd_const h e f : e < length h -> hupd h e f = hupd h e (fun _ => f (hget h e)).
Proof. intro He. unfold hupd. apply (upd_ext _ _ _ _ document_node He). reflexivity. Qed.

Lemma inherit_eq h e t : e < length h -> inherit_comments h e t = hupd h e (fun _ => inherited (hget h t) (hget h e)).
Proof.
  intro He. unfold inherit_comments, inherited.
  assert (forall x, x = hget h e -> h = hupd h e (fun _ => x)) as Hid.
  { intros x ->. symmetry. apply upd_id. intros x Hx. unfold hget. now apply nth_error_nth with (d := document_node) in Hx. }
  destruct (n_comments (hget h t)); [|now apply Hid]. destruct (n_comments (hget h e)) eqn:E; [now apply Hid|].
  now apply hupd_const.
Qed.
Lemma mirror_eq h e t : e < length h -> mirror h e t = hupd h e (fun _ => mirrored t (hget h t) (hget h e)).
Proof. intro He. unfold mirror, mirrored. destruct (n_mirror (hget h t)); now apply hupd_const. Qed.

Lemma hget_set h e x : e < length h -> hget (hupd h e (fun _ => x)) e = x.
Proof. intro He. unfold hupd. now rewrite hget_upd_eq. Qed.
Lemma hget_set_neq h e j f : e <> j -> hget (hupd h e f) j = hget h j.
Proof. intro He. unfold hupd. now apply hget_upd_neq. Qed.
Lemma hupd_length h e f : length (hupd h e f) = length h.
Proof. apply upd_length. Qed.
Lemma hupd_hupd h e x g : e < length h -> hupd (hupd h e (fun _ => x)) e g = hupd h e (fun _ => g x).
Proof. intro He. unfold hupd. now rewrite upd_upd. Qed.

Definition type_mismatch (en : node) (h : heap) (r : rres heap) : Prop :=
  match n_type en with
  | FIELDSET => match hd_opt (n_entries en) with Some x => r = RErr (PMissingFieldsetForEntryNode x) h | None => r = RKey end
  | _ => match hd_opt (n_items en) with Some x => r = RErr (PMissingListForItemNode x) h | None => r = RKey end
  end.

Lemma consolidate_eq h e t : e < length h -> e <> t ->
  match consol t (hget h t) (hget h e) with
  | Some n => consolidate_non_section h e t = ROk (hupd h e (fun _ => n))
  | None => type_mismatch (hget h e) (hupd h e (fun _ => inherited (hget h t) (hget h e))) (consolidate_non_section h e t) /\
            (n_type (hget h e) = FIELDSET \/ n_type (hget h e) = LIST)
  end.
Proof.
  intros He Hne. unfold consolidate_non_section, consol. rewrite (inherit_eq _ _ _ He).
  set (en := inherited (hget h t) (hget h e)). rewrite (hget_set _ _ _ He), (hget_set_neq _ _ t) by assumption.
  assert (n_type en = n_type (hget h e)) as Hty.
  { unfold en, inherited. destruct (n_comments (hget h t)), (n_comments (hget h e)); reflexivity. }
  assert (n_entries en = n_entries (hget h e)) as Hen.
  { unfold en, inherited. destruct (n_comments (hget h t)), (n_comments (hget h e)); reflexivity. }
  assert (n_items en = n_items (hget h e)) as Hit.
  { unfold en, inherited. destruct (n_comments (hget h t)), (n_comments (hget h e)); reflexivity. }
  assert (forall ty, mirror (hupd (hupd h e (fun _ => en)) e (set_type ty)) e t = hupd h e (fun _ => mirrored t (hget h t) (set_type ty en))) as Hmir.
  { intro ty. rewrite hupd_hupd by assumption. rewrite mirror_eq by (now rewrite hupd_length).
    rewrite (hget_set_neq h e t), hget_set, hupd_hupd by assumption. reflexivity. }
  destruct (n_type en) eqn:Et; try reflexivity; destruct (n_type (hget h t)) eqn:Ett; rewrite ?Hmir, ?hupd_hupd by assumption; try reflexivity;
    (split; [|rewrite <- Hty; auto]); unfold type_mismatch; rewrite <- Hty, ?Hen, ?Hit;
    match goal with |- context [hd_opt ?x] => destruct (hd_opt x); reflexivity end.
Qed.

Lemma inherited_text t e : text_part (inherited t e) = text_part e.
Proof. unfold inherited. destruct (n_comments t), (n_comments e); reflexivity. Qed.
Lemma inherited_copy t e : n_copy (inherited t e) = n_copy e.
Proof. unfold inherited. destruct (n_comments t), (n_comments e); reflexivity. Qed.
Lemma consol_text t tn en n : consol t tn en = Some n -> text_part n = text_part en.
Proof.
  unfold consol. rewrite <- (inherited_text tn en). set (x := inherited tn en). unfold text_part, ncls.
  destruct (n_type x) eqn:E; destruct (n_type tn); try discriminate; intros [= <-]; cbn; rewrite ?E; reflexivity.
Qed.

(** * Going through a table *)

Section Table.
  Context (P : heap -> Prop) (E : perr -> heap -> Prop) (K : Prop) (notfound : nat -> perr) (r1 : heap -> nat -> rres heap).

  Definition mono (h h' : heap) : Prop := forall i, n_copy (hget h i) = false -> n_copy (hget h' i) = false.
  Definition one_ok (h : heap) (c : nat) (r : rres heap) : Prop :=
    match r with
    | ROk h' => P h' /\ n_copy (hget h' c) = false /\ mono h h'
    | RErr x h' => E x h'
    | RKey => K
    | RFuel => False
    end.

  Lemma targets_ok l : forall h, P h ->
    (forall h c, In c l -> P h -> n_copy (hget h c) = true -> one_ok h c (r1 h c)) ->
    match rfold (fun h' t => if n_copy (hget h' t) then r1 h' t else ROk h') l (ROk h) with
    | ROk h' => P h' /\ mono h h' /\ forall c, In c l -> n_copy (hget h' c) = false
    | RErr x h' => E x h'
    | RKey => K
    | RFuel => False
    end.
  Proof.
    induction l as [|c l IH]; intros h HP H1.
    - cbn. split; [assumption|]. split; [intros i Hi; assumption|intros c []].
    - change (rfold (fun h' t => if n_copy (hget h' t) then r1 h' t else ROk h') (c :: l) (ROk h))
        with (rfold (fun h' t => if n_copy (hget h' t) then r1 h' t else ROk h') l (if n_copy (hget h c) then r1 h c else ROk h)).
      assert (one_ok h c (if n_copy (hget h c) then r1 h c else ROk h)) as Hc.
      { destruct (n_copy (hget h c)) eqn:Ec; [apply H1; auto; now left|]. split; [assumption|]. split; [assumption|intros i Hi; assumption]. }
      destruct (if n_copy (hget h c) then r1 h c else ROk h) as [h1|x h'| |]; cbn [one_ok] in Hc;
        try (rewrite rfold_fail by discriminate; assumption).
      destruct Hc as (HP1 & Hc1 & Hm1). specialize (IH h1 HP1 ltac:(intros; apply H1; auto; now right)).
      destruct (rfold _ l (ROk h1)) as [h2|x h'| |]; try assumption. destruct IH as (HP2 & Hm2 & Hd2).
      split; [assumption|]. split; [intros i Hi; auto|]. intros c' [<-|Hin]; auto.
  Qed.

  Lemma table_ok tbl : forall h, P h ->
    (forall h k tg t c, In (k, (tg, Some t)) tbl -> In c tg -> P h -> n_copy (hget h c) = true -> one_ok h c (r1 h c)) ->
    (forall h k tg, In (k, (tg, None)) tbl -> P h -> E (notfound (hd 0 tg)) h) ->
    match resolve_table notfound r1 tbl h with
    | ROk h' => P h' /\ mono h h' /\ forall k tg slot, In (k, (tg, slot)) tbl -> slot <> None /\ forall c, In c tg -> n_copy (hget h' c) = false
    | RErr x h' => E x h'
    | RKey => K
    | RFuel => False
    end.
  Proof.
    set (G := fun (h : heap) (ent : text * (list nat * option nat)) => match snd (snd ent) with
      | Some _ => rfold (fun h' t => if n_copy (hget h' t) then r1 h' t else ROk h') (fst (snd ent)) (ROk h)
      | None => RErr (notfound (hd 0 (fst (snd ent)))) h
      end).
    assert (forall h, resolve_table notfound r1 tbl h = rfold G tbl (ROk h)) as EG.
    { intro h. unfold resolve_table, rfold. generalize (@ROk heap h). induction tbl as [|ent l IH]; intro r; [reflexivity|]. cbn [fold_left]. rewrite IH. f_equal. }
    intro h. rewrite EG. clear EG. revert h.
    change (forall h, P h ->
    (forall h k tg t c, In (k, (tg, Some t)) tbl -> In c tg -> P h -> n_copy (hget h c) = true -> one_ok h c (r1 h c)) ->
    (forall h k tg, In (k, (tg, None)) tbl -> P h -> E (notfound (hd 0 tg)) h) ->
    match rfold G tbl (ROk h) with
    | ROk h' => P h' /\ mono h h' /\ forall k tg slot, In (k, (tg, slot)) tbl -> slot <> None /\ forall c, In c tg -> n_copy (hget h' c) = false
    | RErr x h' => E x h'
    | RKey => K
    | RFuel => False
    end).
    induction tbl as [|[k [tg slot]] tbl IH]; intros h HP H1 H2.
    - cbn. split; [assumption|]. split; [intros i Hi; assumption|intros ? ? ? []].
    - change (rfold G ((k, (tg, slot)) :: tbl) (ROk h)) with (rfold G tbl (G h (k, (tg, slot)))).
      unfold G at 2. cbn [fst snd]. destruct slot as [t|].
      + pose proof (targets_ok tg h HP (fun h c Hc => H1 h k tg t c (or_introl eq_refl) Hc)) as Ht.
        destruct (rfold _ tg (ROk h)) as [h1|x h'| |]; try (rewrite rfold_fail by discriminate; assumption).
        destruct Ht as (HP1 & Hm1 & Hd1).
        specialize (IH h1 HP1 (fun h k tg t c Hi => H1 h k tg t c (or_intror Hi)) (fun h k tg Hi => H2 h k tg (or_intror Hi))).
        destruct (rfold G tbl (ROk h1)) as [h2|x h'| |]; try assumption. destruct IH as (HP2 & Hm2 & Hd2).
        split; [assumption|]. split; [intros i Hi; auto|]. intros k' tg' slot' [[= <- <- <-]|Hin]; [|eauto].
        split; [discriminate|]. intros c Hc. auto.
      + rewrite rfold_fail by discriminate. eapply H2; [now left|assumption].
  Qed.
End Table.

(** * Final state of an element *)

Section Fields.
  Context (h0 : heap) (cs cn : list (text * list nat)) (HA : Analysed h0 cs cn).
  Let HS := an_s _ _ _ HA.
  Let HD := an_d _ _ _ HA.

  Inductive final : nat -> node -> Prop :=
  | fin_plain i : n_template (hget h0 i) = None -> final i (hget h0 i)
  | fin_copy i t tn n : template_is false h0 i t -> final t tn -> consol t tn (hget h0 i) = Some n ->
      final i (set_copy false n).

  Lemma template_fun sec i t t' : template_is sec h0 i t -> template_is sec h0 i t' -> t = t'.
  Proof.
    intros (k & (H1 & H2 & H3) & H4 & H5) (k' & (G1 & G2 & G3) & G4 & G5). assert (k = k') as <- by congruence. auto.
  Qed.
  Lemma template_copies sec i t : template_is sec h0 i t -> n_template (hget h0 i) <> None.
  Proof. intros (k & (_ & _ & H) & _). congruence. Qed.
  Lemma template_neq sec i t : template_is sec h0 i t -> i <> t.
  Proof. intros (k & (_ & _ & H) & (_ & _ & _ & G) & _) ->. congruence. Qed.
  Lemma template_lt sec i t : template_is sec h0 i t -> i < length h0 /\ t < length h0.
  Proof. intros (k & (H & _) & (G & _) & _). auto. Qed.

  Lemma final_fun i n n' : final i n -> final i n' -> n = n'.
  Proof.
    intro H. revert n'. induction H as [i Hi|i t tn n Ht Hf IH Hc]; intros n' H'; inversion H' as [j Hj|j t' tn' m Ht' Hf' Hc']; subst.
    - reflexivity.
    - now apply template_copies in Ht'.
    - now apply template_copies in Ht.
    - assert (t' = t) as -> by (eapply template_fun; eauto). apply IH in Hf'. subst tn'. congruence.
  Qed.
  Lemma pristine_over i : pristine (hget h0 i).
  Proof.
    destruct (le_lt_dec (length h0) i) as [Hi|Hi]; [|now apply (an_pr _ _ _ HA)].
    unfold hget. rewrite nth_overflow by assumption. unfold pristine. cbn. repeat split; auto; try discriminate; congruence.
  Qed.
  Lemma final_copy i n : final i n -> n_copy n = false.
  Proof.
    intros [j Hj|]; [|reflexivity]. destruct (pristine_over j) as (_ & _ & _ & _ & _ & _ & _ & H & _).
    rewrite H, Hj. reflexivity.
  Qed.
  Lemma final_text i n : final i n -> text_part n = text_part (hget h0 i).
  Proof.
    intros [j Hj|j t tn m Ht Hf Hc]; [reflexivity|]. apply consol_text in Hc. unfold text_part, ncls in *. cbn. congruence.
  Qed.
  Lemma final_acc i n : final i n -> Acc (fun x y => depends false h0 y x) i.
  Proof.
    induction 1 as [i Hi|i t tn n Ht Hf IH Hc]; constructor; intros j [Hj|[? _]]; try discriminate.
    - now apply template_copies in Hj.
    - now rewrite (template_fun _ _ _ _ Hj Ht).
  Qed.

  (** every instruction is untouched or final *)
  Definition FInv (h : heap) : Prop :=
    length h = length h0 /\
    forall i, (n_copy (hget h i) = true -> hget h i = hget h0 i) /\ (n_copy (hget h i) = false -> final i (hget h i)).
  Definition kept (h h' : heap) : Prop := forall i, n_copy (hget h i) = false -> hget h' i = hget h i.

  Lemma FInv_start : FInv h0.
  Proof.
    split; [reflexivity|]. intro i. split; [reflexivity|]. intro H. apply fin_plain.
    destruct (pristine_over i) as (_ & _ & _ & _ & _ & _ & _ & Hc & _). rewrite Hc in H. destruct (n_template (hget h0 i)); [discriminate|reflexivity].
  Qed.
  Lemma FInv_text h : FInv h -> forall i, text_part (hget h i) = text_part (hget h0 i).
  Proof.
    intros [_ H] i. destruct (H i) as [H1 H2]. destruct (n_copy (hget h i)); [now rewrite H1|]. apply final_text. auto.
  Qed.
  Lemma text_template x y : text_part x = text_part y -> n_template x = n_template y.
  Proof. unfold text_part. congruence. Qed.
  Lemma text_cls x y : text_part x = text_part y -> ncls x = ncls y.
  Proof. unfold text_part. congruence. Qed.
  Lemma kept_refl h : kept h h. Proof. intros i _. reflexivity. Qed.
  Lemma kept_trans h1 h2 h3 : kept h1 h2 -> kept h2 h3 -> kept h1 h3.
  Proof. intros H1 H2 i Hi. rewrite <- (H1 i Hi). apply H2. now rewrite (H1 i Hi). Qed.

  Context (tn : copy_table) (Hix : indexed h0 cs cn false tn).

  Lemma template_of_spec sec tbl h i : indexed h0 cs cn sec tbl -> text_part (hget h i) = text_part (hget h0 i) ->
    i < length h0 -> of_kind sec (hget h0 i) -> n_template (hget h0 i) <> None ->
    match template_of h tbl i with Some t => template_is sec h0 i t | None => dangling sec h0 i end.
  Proof.
    intros (I1 & I2 & I3 & I4) Htx Hi Hk Ht. unfold template_of. rewrite (text_template _ _ Htx).
    destruct (n_template (hget h0 i)) as [k|] eqn:Ek; [|congruence].
    assert (copies sec h0 i k) as Hc by (repeat split; assumption).
    destruct (I4 k i Hc) as (tg & slot & Hin & _). rewrite (in_assoc _ _ _ I2 Hin).
    destruct (I3 _ _ _ Hin) as (_ & _ & Hs). destruct slot as [t|]; exists k; split; assumption.
  Qed.

  Definition reach_dep := clos_refl_trans nat (depends false h0).

  (** the errors resolving the element copies can give *)
  Inductive field_error : perr -> Prop :=
  | fe_missing c : dangling false h0 c -> field_error (PNonSectionNotFound c)
  | fe_cyclic e prev : In e prev -> chain false h0 prev e -> field_error (PCyclic e prev)
  | fe_entry e t n x : template_is false h0 e t -> final t n -> n_type (hget h0 e) = FIELDSET ->
      hd_opt (n_entries (hget h0 e)) = Some x -> (n_type n = FIELD \/ n_type n = LIST \/ n_type n = MULTILINE_FIELD_BEGIN) ->
      field_error (PMissingFieldsetForEntryNode x)
  | fe_item e t n x : template_is false h0 e t -> final t n -> n_type (hget h0 e) = LIST ->
      hd_opt (n_items (hget h0 e)) = Some x -> (n_type n = FIELD \/ n_type n = FIELDSET \/ n_type n = MULTILINE_FIELD_BEGIN) ->
      field_error (PMissingListForItemNode x).

  Definition same_text (h : heap) : Prop := length h = length h0 /\ forall i, text_part (hget h i) = text_part (hget h0 i).

  Definition field_result (prev : list nat) (e : nat) (h : heap) (r : rres heap) : Prop :=
    match r with
    | ROk h' => FInv h' /\ n_copy (hget h' e) = false /\ kept h h' /\ (forall x, In x prev -> hget h' x = hget h x)
    | RErr x h' => field_error x /\ same_text h'
    | RKey => exists j, dangling false h0 j /\ reach_dep e j
    | RFuel => False
    end.

  Lemma mem_in x l : mem x l = true <-> In x l.
  Proof.
    unfold mem. rewrite existsb_exists. split; [intros (y & H & E); apply Nat.eqb_eq in E; now subst|].
    intro H. exists x. split; [assumption|apply Nat.eqb_refl].
  Qed.
  Lemma NoDup_bound l n : NoDup l -> (forall x, In x l -> x < n) -> length l <= n.
  Proof.
    intros H1 H2. rewrite <- (seq_length n 0). apply NoDup_incl_length; [assumption|].
    intros x Hx. apply in_seq. specialize (H2 x Hx). lia.
  Qed.
  Lemma chain_snoc sec l x y : chain sec h0 l x -> depends sec h0 x y -> chain sec h0 (l ++ [x]) y.
  Proof.
    induction l as [|z l IH]; cbn [app chain hd].
    - intros _ H. split; [assumption|exact I].
    - intros [H1 H2] H. split; [|auto]. destruct l as [|w l]; [assumption|exact H1].
  Qed.
  Lemma same_text_set h e x : same_text h -> e < length h0 -> text_part x = text_part (hget h0 e) -> same_text (hupd h e (fun _ => x)).
  Proof.
    intros [H1 H2] He Hx. split; [now rewrite hupd_length|]. intro i. destruct (Nat.eq_dec e i) as [<-|Hne].
    - rewrite hget_set; [assumption|lia].
    - now rewrite hget_set_neq.
  Qed.

  Lemma resolve_one fuel : forall h e prev,
    FInv h -> n_copy (hget h e) = true -> e < length h0 -> of_kind false (hget h0 e) ->
    NoDup prev -> (forall x, In x prev -> x < length h0) -> chain false h0 prev e -> length h0 < fuel + length prev ->
    field_result prev e h (resolve_non_section fuel tn h e prev).
  Proof.
    induction fuel as [|f IH]; intros h e prev HF Hcp He Hk Hnd Hlt Hch Hfuel.
    { pose proof (NoDup_bound _ _ Hnd Hlt). cbn in Hfuel. lia. }
    pose proof HF as [Hlen HF']. cbn [resolve_non_section].
    assert (same_text h) as Hst by (split; [assumption|now apply FInv_text]).
    destruct (mem e prev) eqn:Em.
    { apply mem_in in Em. cbn. split; [now constructor|assumption]. }
    assert (~ In e prev) as Hnin by (intro Hin; apply mem_in in Hin; congruence).
    destruct (HF' e) as [He0 _]. specialize (He0 Hcp).
    assert (n_template (hget h0 e) <> None) as Htp.
    { destruct (pristine_over e) as (_ & _ & _ & _ & _ & _ & _ & H & _). rewrite He0, H in Hcp.
      destruct (n_template (hget h0 e)); [discriminate|discriminate]. }
    pose proof (template_of_spec false tn h e Hix (FInv_text h HF e) He Hk Htp) as Ht.
    destruct (template_of h tn e) as [t|]; [|exists e; split; [assumption|apply rt_refl]].
    pose proof (template_neq _ _ _ Ht) as Hne. destruct (template_lt _ _ _ Ht) as [_ Htl].
    assert (depends false h0 e t) as Hdep by now left.
    (* the heap after resolving the template *)
    assert (forall h1, FInv h1 -> n_copy (hget h1 t) = false -> kept h h1 -> (forall x, In x (prev ++ [e]) -> hget h1 x = hget h x) ->
      field_result prev e h (match consolidate_non_section h1 e t with ROk h2 => ROk (hupd h2 e (set_copy false)) | r => r end)) as Hcons.
    { intros h1 HF1 Hct Hkept Hpv.
      assert (n_copy (hget h1 e) = true) as Hce by (rewrite Hpv; [assumption|apply in_or_app; right; now left]). pose proof HF1 as [Hl1 HF1']. destruct (HF1' t) as [_ Hft]. specialize (Hft Hct).
      destruct (HF1' e) as [He1 _]. specialize (He1 Hce).
      pose proof (consolidate_eq h1 e t ltac:(lia) Hne) as Hc. rewrite He1 in Hc.
      destruct (consol t (hget h1 t) (hget h0 e)) as [n|] eqn:Ec.
      - rewrite Hc. cbn [field_result]. rewrite hupd_hupd by lia. split; [|split; [|split]].
        + split; [now rewrite hupd_length|]. intro i. destruct (Nat.eq_dec e i) as [<-|Hei].
          * rewrite hget_set by lia. split; [discriminate|]. intros _. eapply fin_copy; eassumption.
          * rewrite hget_set_neq by assumption. apply HF1'.
        + rewrite hget_set by lia. reflexivity.
        + intros i Hi. destruct (Nat.eq_dec e i) as [<-|Hei]; [congruence|]. rewrite hget_set_neq by assumption. auto.
        + intros x Hx. rewrite hget_set_neq by congruence. apply Hpv. apply in_or_app. now left.
      - destruct Hc as [Hmis Hty].
        assert (same_text (hupd h1 e (fun _ => inherited (hget h1 t) (hget h0 e)))) as Hst1.
        { apply same_text_set; [split; [assumption|now apply FInv_text]|assumption|apply inherited_text]. }
        assert (n_type (inherited (hget h1 t) (hget h0 e)) = n_type (hget h0 e)) as Hit.
        { unfold inherited. destruct (n_comments (hget h1 t)), (n_comments (hget h0 e)); reflexivity. }
        unfold type_mismatch in Hmis. unfold consol in Ec. rewrite Hit in Ec.
        pose proof (d_type _ HD e He) as [_ Hok].
        destruct Hty as [Hty|Hty]; rewrite Hty in *.
        + destruct Hok as (_ & _ & _ & _ & _ & Hok). destruct (n_entries (hget h0 e)) as [[|x l]|] eqn:Een; cbn in Hok; try contradiction.
          cbn in Hmis. rewrite Hmis. cbn [field_result]. split; [|assumption].
          eapply fe_entry; [exact Ht|exact Hft|assumption|rewrite Een; reflexivity|].
          destruct (n_type (hget h1 t)); try discriminate; auto.
        + destruct Hok as (_ & _ & _ & _ & _ & Hok). destruct (n_items (hget h0 e)) as [[|x l]|] eqn:Een; cbn in Hok; try contradiction.
          cbn in Hmis. rewrite Hmis. cbn [field_result]. split; [|assumption].
          eapply fe_item; [exact Ht|exact Hft|assumption|rewrite Een; reflexivity|].
          destruct (n_type (hget h1 t)); try discriminate; auto. }
    destruct (n_copy (hget h t)) eqn:Ect.
    - specialize (IH h t (prev ++ [e]) HF Ect Htl).
      assert (field_result (prev ++ [e]) t h (resolve_non_section f tn h t (prev ++ [e]))) as Hr.
      { apply IH.
        - destruct Ht as (k & _ & (_ & Hkt & _) & _). exact Hkt.
        - now apply NoDup_snoc.
        - intros x Hx. apply in_app_or in Hx as [Hx|[<-|[]]]; auto.
        - eapply chain_snoc; eassumption.
        - rewrite app_length. cbn [length]. lia. }
      destruct (resolve_non_section f tn h t (prev ++ [e])) as [h1|x h'| |]; cbn [field_result] in *.
      + destruct Hr as (HF1 & Hc1 & Hk1 & Hp1). apply Hcons; assumption.
      + assumption.
      + destruct Hr as (j & Hj & Hr). exists j. split; [assumption|]. eapply rt_trans; [apply rt_step; exact Hdep|assumption].
      + assumption.
    - apply Hcons; auto. apply kept_refl.
  Qed.

  (** after all element copies were resolved *)
  Definition fields_done (h : heap) : Prop :=
    length h = length h0 /\
    forall i, i < length h0 ->
      (of_kind false (hget h0 i) -> final i (hget h i)) /\ (~ of_kind false (hget h0 i) -> hget h i = hget h0 i).
  (** an element that copies one whose template is missing *)
  Definition dangling_chain (sec : bool) : Prop :=
    exists i j, clos_trans nat (depends sec h0) i j /\ dangling sec h0 j.

  Theorem fields_phase :
    match resolve_table PNonSectionNotFound (fun h e => resolve_non_section (S (length h0)) tn h e []) tn h0 with
    | ROk h => fields_done h /\ same_text h /\ (forall i, ~ dangling false h0 i)
    | RErr x h => field_error x /\ same_text h
    | RKey => dangling_chain false
    | RFuel => False
    end.
  Proof.
    set (P := fun h => FInv h /\ forall i, i < length h0 -> ~ of_kind false (hget h0 i) -> hget h i = hget h0 i).
    pose proof Hix as (I1 & I2 & I3 & I4).
    assert (forall c, c < length h0 -> n_template (hget h0 c) <> None -> of_kind false (hget h0 c) \/ of_kind true (hget h0 c)) as Hcls.
    { intros c Hc Ht. destruct (an_pr _ _ _ HA c Hc) as (_ & _ & _ & _ & _ & _ & _ & _ & H & _).
      destruct (H Ht) as [H'|H']; [left|right]; now apply kind_cls. }
    pose proof (table_ok P (fun x h => field_error x /\ same_text h) (dangling_chain false) PNonSectionNotFound
      (fun h e => resolve_non_section (S (length h0)) tn h e []) tn h0) as HT.
    assert (P h0) as HP0 by (split; [apply FInv_start|auto]).
    specialize (HT HP0).
    assert (forall h k tg t c, In (k, (tg, Some t)) tn -> In c tg -> P h -> n_copy (hget h c) = true ->
      one_ok P (fun x h => field_error x /\ same_text h) (dangling_chain false) h c (resolve_non_section (S (length h0)) tn h c [])) as H1.
    { intros h k tg t c Hin Hc [HF HP] Hcp. destruct (I3 _ _ _ Hin) as (_ & Hcc & Hslot). apply Hcc in Hc.
      pose proof Hc as (Hcl & Hck & Hct).
      pose proof (resolve_one (S (length h0)) h c [] HF Hcp Hcl Hck ltac:(constructor) ltac:(intros ? []) I ltac:(cbn; lia)) as Hr.
      pose proof HF as [Hlen HF'].
      destruct (resolve_non_section (S (length h0)) tn h c []) as [h'|x h'| |] eqn:Er; cbn [field_result one_ok] in *.
      - destruct Hr as (HF1 & Hd1 & Hk1 & _). split; [|split; [assumption|]].
        + split; [assumption|]. intros i Hi Hni. pose proof HF1 as [_ HF1']. destruct (HF1' i) as [A1 A2].
          destruct (n_copy (hget h' i)) eqn:Ei; [auto|].
          specialize (A2 eq_refl). inversion A2 as [j Hj|j t' tn' n Ht' Hf' Hc']; subst; [congruence|].
          exfalso. apply Hni. destruct Ht' as (k' & (_ & Hk' & _) & _). exact Hk'.
        + intros i Hi. rewrite (Hk1 i Hi). assumption.
      - assumption.
      - destruct Hr as (j & Hj & Hrd). exists c, j. split; [|assumption].
        apply clos_rt_rt1n in Hrd. inversion Hrd as [|y z Hy Hz]; subst.
        + exfalso. destruct Hj as (k' & (_ & _ & Hk') & Hno). assert (k' = k) as -> by congruence.
          destruct Hslot as [Hsl _]. now apply (Hno t).
        + apply clos_rt1n_rt in Hz. clear - Hy Hz. apply clos_rt_rtn1 in Hz. induction Hz as [|z w Hzw Hz IH].
          * now apply t_step.
          * eapply t_trans; [exact IH|now apply t_step].
      - assumption. }
    assert (forall h k tg, In (k, (tg, None)) tn -> P h -> field_error (PNonSectionNotFound (hd 0 tg)) /\ same_text h) as H2.
    { intros h k tg Hin [HF HP]. destruct (I3 _ _ _ Hin) as (Hne & Hcc & Hslot). split.
      - apply fe_missing. exists k. split; [|assumption]. apply Hcc. destruct tg; [contradiction|now left].
      - split; [apply HF|now apply FInv_text]. }
    specialize (HT H1 H2). destruct (resolve_table _ _ tn h0) as [h|x h| |]; try assumption.
    destruct HT as ((HF & HP) & Hm & Hd). pose proof HF as [Hlen HF']. split; [|split].
    - split; [assumption|]. intros i Hi. split; [|auto]. intro Hk. destruct (HF' i) as [A1 A2].
      destruct (n_copy (hget h i)) eqn:Ei; [|auto]. specialize (A1 eq_refl).
      destruct (n_template (hget h0 i)) as [k|] eqn:Ek.
      + destruct (I4 k i ltac:(repeat split; assumption)) as (tg & slot & Hin & Hc). destruct (Hd _ _ _ Hin) as [_ Hd'].
        rewrite (Hd' i Hc) in Ei. discriminate.
      + rewrite A1. now apply fin_plain.
    - split; [assumption|now apply FInv_text].
    - intros i (k & Hc & Hno). destruct (I4 k i Hc) as (tg & slot & Hin & Hci). destruct (Hd _ _ _ Hin) as [Hs _].
      destruct slot as [t|]; [|congruence]. destruct (I3 _ _ _ Hin) as (_ & _ & Hsl). now apply (Hno t).
  Qed.
End Fields.
