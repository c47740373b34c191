(** ReadLinks: where reading the elements of a resolved document leads. *)
From Coq Require Import Relations.
From Verif Require Import Base Types Scan Analyzer TokenStep HeapFacts AnalyzerInv AnalyzerLoop SpecTree AnalyzerTree
  AnalyzerFinal AnalyzerCopies Resolver SpecResolve ResolverIndex ResolverFields ResolverSections ResolverFinal
  Reporter Errors Context SpecText SpecRead Reads ReadOps.

Section Links.
  Context (inp : text) (h0 : heap) (cs cn : list (text * list nat)) (HA : Analysed h0 cs cn) (r : heap) (HR : Resolved h0 r).
  Let HD := an_d _ _ _ HA.

  Lemma res_len : length r = length h0. Proof. apply (rs_text _ _ HR). Qed.
  Lemma res_text i : text_part (hget r i) = text_part (hget h0 i). Proof. apply (rs_text _ _ HR). Qed.
  Lemma res_fields i : n_key (hget r i) = n_key (hget h0 i) /\ n_value (hget r i) = n_value (hget h0 i) /\
    n_elements (hget r i) = n_elements (hget h0 i) /\ n_items (hget r i) = n_items (hget h0 i) /\ n_entries (hget r i) = n_entries (hget h0 i) /\
    n_conts (hget r i) = n_conts (hget h0 i) /\ n_lines (hget r i) = n_lines (hget h0 i) /\ n_template (hget r i) = n_template (hget h0 i) /\
    n_parent (hget r i) = n_parent (hget h0 i) /\ ncls (hget r i) = ncls (hget h0 i).
  Proof. pose proof (res_text i) as H. unfold text_part in H. repeat split; congruence. Qed.
  Lemma res_fresh : fresh r.
  Proof.
    intro i. pose proof (res_text i) as H. destruct (pristine_over h0 cs cn HA i) as (_ & _ & P1 & P2 & P3 & P4 & P5 & _).
    unfold text_part in H. repeat split; congruence.
  Qed.

  Lemma of_kind_res sec i : of_kind sec (hget r i) <-> of_kind sec (hget h0 i).
  Proof.
    destruct (res_fields i) as (_ & _ & _ & _ & _ & _ & _ & _ & _ & E). destruct sec; cbn.
    - rewrite <- !ncls_sec. now rewrite E.
    - rewrite <- !ncls_elem. now rewrite E.
  Qed.
  Lemma copies_res sec i k : copies sec r i k <-> copies sec h0 i k.
  Proof. unfold copies. rewrite res_len, of_kind_res. destruct (res_fields i) as (_ & _ & _ & _ & _ & _ & _ & E & _). now rewrite E. Qed.
  Lemma candidate_res sec k t : candidate sec r k t <-> candidate sec h0 k t.
  Proof. unfold candidate. rewrite res_len, of_kind_res. destruct (res_fields t) as (E' & _ & _ & _ & _ & _ & _ & E & _). now rewrite E, E'. Qed.
  Lemma template_res sec i t : template_is sec r i t <-> template_is sec h0 i t.
  Proof.
    split; intros (k & H1 & H2 & H3); exists k; (split; [now apply copies_res|]; split; [now apply candidate_res|]); intros t' Ht'; apply H3;
      now apply candidate_res.
  Qed.

  Lemma elem_lt i : of_kind false (hget h0 i) -> i < length h0.
  Proof.
    intro H. destruct (Nat.lt_ge_cases i (length h0)) as [|L]; [assumption|]. unfold hget in H. rewrite nth_overflow in H by assumption. destruct H.
  Qed.
  Lemma elem_final i : of_kind false (hget h0 i) -> final h0 i (hget r i).
  Proof. intro H. apply (rs_elem _ _ HR); [now apply elem_lt|assumption]. Qed.
  Lemma template_elem i t : template_is false h0 i t -> of_kind false (hget h0 i) /\ of_kind false (hget h0 t).
  Proof. intros (k & (_ & H & _) & (_ & G & _) & _). auto. Qed.

  (** the instruction of a copy *)
  Inductive copied_as (e t : nat) : Prop :=
  | as_mirror m : n_type (hget h0 e) = EMPTY_ELEMENT -> n_extend (hget r e) = None -> n_mirror (hget r e) = Some m ->
      m = match n_mirror (hget r t) with Some m => m | None => t end ->
      n_type (hget r t) = FIELD \/ n_type (hget r t) = MULTILINE_FIELD_BEGIN \/ n_type (hget r t) = LIST \/ n_type (hget r t) = FIELDSET ->
      n_type (hget r e) = match n_type (hget r t) with MULTILINE_FIELD_BEGIN => FIELD | x => x end -> copied_as e t
  | as_extend : n_type (hget h0 e) = n_type (hget r e) -> n_mirror (hget r e) = None -> n_extend (hget r e) = Some t ->
      n_type (hget r t) = n_type (hget r e) -> n_type (hget r e) = LIST \/ n_type (hget r e) = FIELDSET -> copied_as e t
  | as_nothing : n_type (hget h0 e) = n_type (hget r e) -> n_mirror (hget r e) = None -> n_extend (hget r e) = None ->
      n_type (hget r t) = EMPTY_ELEMENT -> n_type (hget r e) = LIST \/ n_type (hget r e) = FIELDSET \/ n_type (hget r e) = EMPTY_ELEMENT ->
      copied_as e t.

  Lemma inherited_links tn en : n_type (inherited tn en) = n_type en /\ n_mirror (inherited tn en) = n_mirror en /\ n_extend (inherited tn en) = n_extend en.
  Proof. unfold inherited. destruct (n_comments tn), (n_comments en); auto. Qed.

  Lemma copy_cases e t : template_is false h0 e t -> copied_as e t.
  Proof.
    intro Ht. destruct (template_elem _ _ Ht) as [Ke Kt]. pose proof (elem_final _ Ke) as Fe. pose proof (elem_final _ Kt) as Ft.
    inversion Fe as [i Hi Ei|i t' tn n Ht' Hf Hc Ei]; subst; [now apply template_copies in Ht|].
    assert (t' = t) as -> by (eapply template_fun; eassumption).
    assert (tn = hget r t) as -> by (eapply final_fun; eassumption).
    destruct (pristine_over h0 cs cn HA e) as (P1 & P2 & _).
    pose proof (d_type _ HD e (elem_lt _ Ke)) as Hty. pose proof (proj2 (final_means _ _ _ Ft) Kt) as Mt.
    pose proof (template_copies _ _ _ _ Ht) as Htm.
    assert (Q : n_type (hget r e) = n_type n /\ n_mirror (hget r e) = n_mirror n /\ n_extend (hget r e) = n_extend n) by (rewrite <- H; auto).
    destruct Q as (Q1 & Q2 & Q3). clear H.
    unfold consol in Hc. destruct (inherited_links (hget r t) (hget h0 e)) as (E1 & E2 & E3).
    revert Hc E1 E2 E3. generalize (inherited (hget r t) (hget h0 e)). intros en Hc E1 E2 E3. rewrite E1 in Hc.
    assert (forall x, mirrored t (hget r t) x = set_mirror (Some (match n_mirror (hget r t) with Some m => m | None => t end)) x) as Hm by reflexivity.
    unfold is_element in Mt. unfold of_kind, is_element in Ke.
    destruct (n_type (hget h0 e)) eqn:Ety; try contradiction.
    - destruct (n_type (hget r t)) eqn:Ett; try contradiction; injection Hc as <-; rewrite ?Hm in *; cbn in Q1, Q2, Q3.
      + apply as_nothing; try congruence; rewrite Q1, E1; auto.
      + eapply as_mirror; try eassumption; try congruence; try reflexivity; rewrite ?Ett, ?Q1; auto.
      + eapply as_mirror; try eassumption; try congruence; try reflexivity; rewrite ?Ett, ?Q1; auto.
      + eapply as_mirror; try eassumption; try congruence; try reflexivity; rewrite ?Ett, ?Q1; auto.
      + eapply as_mirror; try eassumption; try congruence; try reflexivity; rewrite ?Ett, ?Q1; auto.
    - exfalso. unfold type_ok in Hty. rewrite Ety in Hty. destruct Hty as [_ Hty]. tauto.
    - destruct (n_type (hget r t)) eqn:Ett; try contradiction; try discriminate; injection Hc as <-; cbn in Q1, Q2, Q3.
      + apply as_nothing; try congruence; rewrite Q1, E1; auto.
      + apply as_extend; try congruence; rewrite Q1, E1; auto.
    - destruct (n_type (hget r t)) eqn:Ett; try contradiction; try discriminate; injection Hc as <-; cbn in Q1, Q2, Q3.
      + apply as_nothing; try congruence; rewrite Q1, E1; auto.
      + apply as_extend; try congruence; rewrite Q1, E1; auto.
    - exfalso. unfold type_ok in Hty. rewrite Ety in Hty. destruct Hty as [_ Hty]. tauto.
  Qed.

  (** ** Every element can be read *)

  (** what reading an element meets on its path *)
  Definition along (ty : itype) (p : list nat) : Prop :=
    match ty with
    | LIST => forall x, In x p -> n_extend (hget r x) <> None -> n_items (hget r x) <> None
    | FIELDSET => forall x, In x p -> n_mirror (hget r x) = None -> n_entries (hget r x) <> None
    | _ => True
    end.

  Lemma plain_links e : of_kind false (hget h0 e) -> n_template (hget h0 e) = None -> hget r e = hget h0 e.
  Proof.
    intros Ke Hn. pose proof (elem_final _ Ke) as Fe. inversion Fe as [i Hi Ei|i t' tn n Ht' Hf Hc Ei]; subst; [congruence|].
    now apply template_copies in Ht'.
  Qed.
  Lemma other_links e : ncls (hget h0 e) <> CSec -> ~ of_kind false (hget h0 e) -> hget r e = hget h0 e.
  Proof. apply (rs_other _ _ HR). Qed.

  Lemma own_given e : of_kind false (hget h0 e) -> (n_type (hget h0 e) = LIST -> n_items (hget r e) <> None) /\
    (n_type (hget h0 e) = FIELDSET -> n_entries (hget r e) <> None).
  Proof.
    intro Ke. pose proof (d_type _ HD e (elem_lt _ Ke)) as Hty. destruct (res_fields e) as (_ & _ & _ & E1 & E2 & _). rewrite E1, E2.
    unfold type_ok in Hty. destruct Hty as [_ Hty]. split; intro E; rewrite E in Hty; intro N; rewrite N in Hty; cbn in Hty; tauto.
  Qed.

  Lemma elem_path e n : final h0 e n -> of_kind false (hget h0 e) -> exists p, path r e p /\ along (n_type (hget r e)) p.
  Proof.
    induction 1 as [e He|e t tn n Ht Hf IH Hc]; intro Ke.
    - pose proof (plain_links e Ke He) as E. destruct (pristine_over h0 cs cn HA e) as (P1 & P2 & _).
      exists [e]. split; [apply path_end; rewrite E; assumption|]. pose proof (own_given e Ke) as [O1 O2]. rewrite E.
      unfold along. destruct (n_type (hget h0 e)); auto; intros x [<-|[]]; auto.
    - destruct (template_elem _ _ Ht) as [_ Kt]. destruct (IH Kt) as (p & Hp & Ha). pose proof (own_given e Ke) as [O1 O2].
      destruct (copy_cases e t Ht) as [m E0 Ex Em Hm Ety Ee|E0 Em Ex Ett Ety|E0 Em Ex Ett Ety].
      + assert (exists q, path r m q /\ forall x, In x q -> In x p) as (q & Hq & Hqp).
        { destruct (n_mirror (hget r t)) as [m'|] eqn:Emt; [|subst m; eauto]. subst m.
          inversion Hp as [? G1 G2|? m2 q Hf2 Hp2]; subst; [congruence|]. exists q. destruct Hf2 as [Hf2|[Hf2 _]]; [|congruence].
          replace m' with m2 by congruence. split; [assumption|]. intros x Hx. now right. }
        exists (e :: q). split; [eapply path_on; [left; eassumption|assumption]|].
        assert (A : n_type (hget r e) = n_type (hget r t) \/ n_type (hget r e) = FIELD) by (rewrite Ee; destruct (n_type (hget r t)); auto).
        destruct A as [A|A]; [|rewrite A; exact I]. rewrite A. unfold along in *. destruct (n_type (hget r t)); auto.
        * intros x [<-|Hx] Hn; [congruence|]. apply Ha; auto.
        * intros x [<-|Hx] Hn; [congruence|]. apply Ha; auto.
      + exists (e :: p). split; [eapply path_on; [right; split; eassumption|assumption]|]. rewrite Ett in Ha.
        unfold along in *. destruct (n_type (hget r e)); auto; intros x [<-|Hx]; auto.
      + exists [e]. split; [now apply path_end|]. unfold along. destruct (n_type (hget r e)); auto; intros x [<-|[]]; auto.
  Qed.
  Lemma can_read e : ncls (hget h0 e) <> CSec -> exists p, path r e p /\ along (n_type (hget r e)) p.
  Proof.
    intro Hc. destruct (nclass_eqb (ncls (hget h0 e)) CElem) eqn:Ec.
    - apply nclass_eqb_eq in Ec. apply ncls_elem in Ec. eapply elem_path; [|exact Ec]. now apply elem_final.
    - assert (~ of_kind false (hget h0 e)) as Hk. { intro K. apply ncls_elem in K. rewrite K in Ec. discriminate. }
      pose proof (other_links e Hc Hk) as E. destruct (pristine_over h0 cs cn HA e) as (P1 & P2 & _).
      exists [e]. split; [apply path_end; rewrite E; assumption|]. rewrite E. unfold of_kind, is_element in Hk. unfold along. destruct (n_type (hget h0 e)); auto; destruct (Hk I).
  Qed.

  (** ** Answers *)

  Lemma cached0 : Cached inp r [] r.
  Proof. apply cached_start, res_fresh. Qed.
  Lemma ask_keeps a : keeping inp r (do_ask inp a).
  Proof.
    intros h h' v HC. unfold do_ask, mbind at 1, get. pose proof (ca_len _ _ _ _ HC) as HL.
    destruct a; match goal with |- ?m h = _ -> _ => enough (keeping inp r m) as K by (now apply K) end;
      apply keeping_bind; try (intro; apply keeping_ret); try apply keeping_value; try apply keeping_comment; try apply keeping_items; try apply keeping_raw.
    - intros h1 h2 w H1. rewrite HL, <- (ca_len _ _ _ _ H1). now apply keeping_entries.
    - intros h1 h2 w H1. rewrite HL, <- (ca_len _ _ _ _ H1). now apply keeping_elements.
  Qed.
  Lemma after_keeps hist : forall h, Cached inp r [] h -> Cached inp r [] (after inp hist h).
  Proof.
    induction hist as [|a hist IH]; intros h HC; cbn [after]; [assumption|]. apply IH.
    destruct (do_ask inp a h) as [h' v] eqn:E. eapply ask_keeps; eassumption.
  Qed.

  Lemma value_answer h e v : Cached inp r [] h -> value_at inp r e v -> (exists p, path r e p) -> answered inp (AskValue e) h = Ok (AnsText v).
  Proof.
    intros HC Hv (p & Hp). unfold answered, do_ask, mbind, get, ret. rewrite (ca_len _ _ _ _ HC).
    destruct (value_run inp r e p Hp [] (S (length r)) h HC (path_length _ _ _ Hp)) as (w & h' & E & Hw & _).
    rewrite E. cbn. do 2 f_equal. eapply value_at_fun; eassumption.
  Qed.
  Lemma items_answer h e l p : Cached inp r [] h -> items_at r e l -> path r e p ->
    (forall x, In x p -> n_extend (hget r x) <> None -> n_items (hget r x) <> None) -> answered inp (AskItems e) h = Ok (AnsList l).
  Proof.
    intros HC Hl Hp Hi. unfold answered, do_ask, mbind, get, ret. rewrite (ca_len _ _ _ _ HC).
    destruct (items_run inp r e p Hp Hi [] (S (length r)) h HC (path_length _ _ _ Hp)) as (w & h' & E & Hw & _).
    rewrite E. cbn. do 2 f_equal. eapply items_at_fun; eassumption.
  Qed.
  Lemma entries_answer h e l : Cached inp r [] h -> entries_at r e l -> answered inp (AskEntries e) h = Ok (AnsList l).
  Proof.
    intros HC Hl. unfold answered, do_ask, mbind, get, ret. rewrite (ca_len _ _ _ _ HC).
    destruct (entries (S (length r)) e h) as [h' v] eqn:E.
    destruct (entries_keeps inp r _ _ [] _ _ _ HC (fits_all r e) E) as (_ & _ & K). rewrite (K l Hl). reflexivity.
  Qed.
  Lemma elements_answer h e l : Cached inp r [] h -> elements_at r e l -> answered inp (AskElements e) h = Ok (AnsElements (Some l)).
  Proof.
    intros HC Hl. unfold answered, do_ask, mbind, get, ret. rewrite (ca_len _ _ _ _ HC).
    destruct (elements (S (length r)) e h) as [h' v] eqn:E.
    destruct (elements_keeps inp r _ _ [] _ _ _ HC (fits_all r e) E) as (_ & _ & _ & K). rewrite (K l Hl). reflexivity.
  Qed.
  Lemma comment_answer h e : Cached inp r [] h -> 
    match answered inp (AskComment e) h with
    | Ok (AnsText v) => comment_at r e v
    | Raise x => x = KeyError /\ exists l, n_comments (hget r e) = Some [l] /\ l_text l = None
    | _ => False
    end.
  Proof.
    intros HC. unfold answered, do_ask, mbind, get, ret.
    destruct (comment_run inp r e [] h HC) as [(x & H1 & H2 & E)|(v & h' & E & Hv & _)]; rewrite E; cbn; [eauto|assumption].
  Qed.
  Lemma comment_at_fun e v w : comment_at r e v -> comment_at r e w -> v = w.
  Proof. unfold comment_at. destruct (n_comments (hget r e)) as [[|x [|y l]]|]; intros; intuition congruence. Qed.
End Links.
