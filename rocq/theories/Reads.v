(** Reads: the context accessors on a document with correct caches. *)
From Verif Require Import Base Types Messages HeapFacts Resolver Reporter Errors Context SpecText SpecRead.

(** an instruction without the cached results *)
Definition bare (n : node) : node :=
  set_cvalue None (set_ccomment None (set_cels None (set_centries None (set_citems None n)))).

Lemma bare_fields x y : bare x = bare y ->
  n_type x = n_type y /\ n_key x = n_key y /\ n_value x = n_value y /\ n_comments x = n_comments y /\
  n_elements x = n_elements y /\ n_items x = n_items y /\ n_entries x = n_entries y /\ n_conts x = n_conts y /\
  n_lines x = n_lines y /\ n_mirror x = n_mirror y /\ n_extend x = n_extend y /\ n_parent x = n_parent y /\
  n_ranges x = n_ranges y /\ n_line x = n_line y /\ n_end x = n_end y /\ n_template x = n_template y.
Proof. unfold bare. cbn. intro H. injection H. intros. repeat split; assumption. Qed.

Section Reads.
  Context (inp : text) (r : heap).

  (** * Specification on the resolved heap *)

  (** reading [e] continues at [m] *)
  Definition follow (e m : nat) : Prop :=
    n_mirror (hget r e) = Some m \/ n_mirror (hget r e) = None /\ n_extend (hget r e) = Some m.
  Inductive path : nat -> list nat -> Prop :=
  | path_end e : n_mirror (hget r e) = None -> n_extend (hget r e) = None -> path e [e]
  | path_on e m p : follow e m -> path m p -> path e (e :: p).

  Inductive value_at : nat -> option text -> Prop :=
  | va_own e : n_mirror (hget r e) = None -> value_at e (own_value inp (hget r e))
  | va_mirror e m v : n_mirror (hget r e) = Some m -> value_at m v -> value_at e v.

  Inductive items_at : nat -> list nat -> Prop :=
  | ia_own e : n_mirror (hget r e) = None -> n_extend (hget r e) = None ->
      items_at e (match n_items (hget r e) with Some l => l | None => [] end)
  | ia_mirror e m l : n_mirror (hget r e) = Some m -> items_at m l -> items_at e l
  | ia_extend e t l own : n_mirror (hget r e) = None -> n_extend (hget r e) = Some t ->
      n_items (hget r e) = Some own -> items_at t l -> items_at e (l ++ own).

  Inductive entries_at : nat -> list nat -> Prop :=
  | ea_own e own : n_mirror (hget r e) = None -> n_extend (hget r e) = None ->
      n_entries (hget r e) = Some own -> entries_at e own
  | ea_mirror e m l : n_mirror (hget r e) = Some m -> entries_at m l -> entries_at e l
  | ea_extend e t l own : n_mirror (hget r e) = None -> n_extend (hget r e) = Some t ->
      n_entries (hget r e) = Some own -> entries_at t l ->
      entries_at e (filter (fun x => negb (has_key r own x)) l ++ own).

  (** [context.elements] *)
  Inductive elements_at : nat -> list nat -> Prop :=
  | la_own e : n_mirror (hget r e) = None -> n_extend (hget r e) = None -> elements_at e (n_elements (hget r e))
  | la_extend e t l : n_mirror (hget r e) = None -> n_extend (hget r e) = Some t -> elements_at t l ->
      elements_at e (filter (fun x => negb (has_key r (n_elements (hget r e)) x)) l ++ n_elements (hget r e)).

  Lemma follow_fun e m m' : follow e m -> follow e m' -> m = m'.
  Proof. intros [H|[H1 H2]] [G|[G1 G2]]; congruence. Qed.
  Lemma path_fun e p p' : path e p -> path e p' -> p = p'.
  Proof.
    intro H. revert p'. induction H as [e H1 H2|e m p Hf Hp IH]; intros p' G; inversion G as [e' G1 G2|e' m' q Gf Gp]; subst.
    - reflexivity.
    - destruct Gf as [?|[? ?]]; congruence.
    - destruct Hf as [?|[? ?]]; congruence.
    - rewrite (follow_fun _ _ _ Gf Hf) in Gp. f_equal. auto.
  Qed.
  Lemma path_from e p x : path e p -> In x p -> exists q, path x q /\ length q <= length p /\ (x <> e -> length q < length p).
  Proof.
    induction 1 as [e H1 H2|e m p Hf Hp IH]; intro Hx.
    - destruct Hx as [<-|[]]. exists [e]. split; [now apply path_end|]. split; [lia|congruence].
    - destruct Hx as [<-|Hx].
      + exists (e :: p). split; [eapply path_on; eassumption|]. split; [lia|congruence].
      + destruct (IH Hx) as (q & Q1 & Q2 & _). exists q. cbn. split; [assumption|]. split; [lia|]. lia.
  Qed.
  Lemma path_nodup e p : path e p -> NoDup p.
  Proof.
    induction 1 as [e H1 H2|e m p Hf Hp IH]; [repeat constructor; intros []|].
    constructor; [|assumption]. intro Hin. destruct (path_from _ _ _ Hp Hin) as (q & Q1 & Q2 & _).
    assert (q = e :: p) as -> by (eapply path_fun; [exact Q1|eapply path_on; eassumption]). cbn in Q2. lia.
  Qed.

  (** only the end of a path can be outside the document *)
  Lemma path_length e p : path e p -> length p <= S (length r).
  Proof.
    intro H. pose proof (path_nodup _ _ H) as ND.
    assert (HR : forall x, In x (removelast p) -> x < length r).
    { clear ND. induction H as [e H1 H2|e m p Hf Hp IH]; [intros ? []|].
      assert (p <> []) as Hne by (inversion Hp; discriminate). intros x Hx. destruct p as [|y p]; [contradiction|].
      change (In x (e :: removelast (y :: p))) in Hx. destruct Hx as [<-|Hx]; [|now apply IH].
      destruct (Nat.lt_ge_cases e (length r)) as [|L]; [assumption|]. unfold follow, hget in Hf. rewrite nth_overflow in Hf by assumption.
      destruct Hf as [Hf|[_ Hf]]; discriminate. }
    destruct p as [|y p _] using rev_ind; [cbn; lia|]. rewrite removelast_last in HR. rewrite app_length. cbn [length].
    assert (NoDup p) as ND' by (apply NoDup_rev in ND; rewrite rev_app_distr in ND; cbn in ND; apply NoDup_cons_iff in ND as [_ ND]; apply NoDup_rev in ND; now rewrite rev_involutive in ND).
    assert (length p <= length (seq 0 (length r))); [|rewrite seq_length in *; lia].
    apply NoDup_incl_length; [assumption|]. intros x Hx. apply in_seq. specialize (HR x Hx). lia.
  Qed.

  Lemma value_at_fun e v v' : value_at e v -> value_at e v' -> v = v'.
  Proof. intro H. revert v'. induction H; intros w G; inversion G; subst; try congruence. apply IHvalue_at. congruence. Qed.
  Lemma items_at_fun e v v' : items_at e v -> items_at e v' -> v = v'.
  Proof.
    intro H. revert v'. induction H; intros w G; inversion G; subst; try congruence.
    - apply IHitems_at. congruence.
    - f_equal; [|congruence]. apply IHitems_at. congruence.
  Qed.
  Lemma entries_at_fun e v v' : entries_at e v -> entries_at e v' -> v = v'.
  Proof.
    intro H. revert v'. induction H; intros w G; inversion G; subst; try congruence.
    - apply IHentries_at. congruence.
    - assert (own0 = own) by congruence. subst. f_equal. f_equal. apply IHentries_at. congruence.
  Qed.
  Lemma elements_at_fun e v v' : elements_at e v -> elements_at e v' -> v = v'.
  Proof.
    intro H. revert v'. induction H; intros w G; inversion G; subst; try congruence.
    f_equal. f_equal. apply IHelements_at. congruence.
  Qed.

  (** * Correct caches *)

  Definition comment_at (e : nat) (v : option text) : Prop :=
    match n_comments (hget r e) with
    | None => v = None
    | Some [x] => l_text x <> None /\ v = l_text x
    | Some cs => v = multi_comment cs
    end.

  (** sections of what a section extends are replaced by elements of its own *)
  Definition sections_replaced : Prop := forall e t x, n_mirror (hget r e) = None -> n_extend (hget r e) = Some t ->
    In x (n_elements (hget r t)) -> n_type (hget r x) = SECTION -> exists y, In y (n_elements (hget r e)) /\ n_key (hget r y) = n_key (hget r x).
  (** elements of others, then the own ones *)
  Definition tail_at (i : nat) (v : list nat) : Prop := exists l, v = l ++ n_elements (hget r i) /\
    forall x, In x l -> (exists j, In x (n_elements (hget r j))) /\ (sections_replaced -> n_type (hget r x) <> SECTION).
  Lemma tail_own i : tail_at i (n_elements (hget r i)). Proof. exists []. split; [reflexivity|]. intros x []. Qed.
  Lemma has_key_in h own x y : In y own -> n_key (hget h y) = n_key (hget h x) -> has_key h own x = true.
  Proof. intros H1 H2. unfold has_key. apply existsb_exists. exists y. split; [assumption|]. unfold key_of. rewrite H2. now apply text_eqb_eq. Qed.
  Lemma tail_next e t v : n_mirror (hget r e) = None -> n_extend (hget r e) = Some t -> tail_at t v ->
    tail_at e (filter (fun x => negb (has_key r (n_elements (hget r e)) x)) v ++ n_elements (hget r e)).
  Proof.
    intros H1 H2 (l & -> & Hl). eexists. split; [reflexivity|]. intros x Hx. apply filter_In in Hx as [Hx Hk]. apply in_app_or in Hx as [Hx|Hx]; [now apply Hl|].
    split; [eauto|]. intros HS Hs. destruct (HS e t x H1 H2 Hx Hs) as (y & Y1 & Y2). rewrite (has_key_in r _ x y Y1 Y2) in Hk. discriminate.
  Qed.

  (** [X]: instructions whose entries or elements are being computed.  Where the links never end the
      cached entries and elements mean nothing. *)
  Record Cached (X : list nat) (h : heap) : Prop := {
    ca_len : length h = length r;
    ca_bare : forall i, bare (hget h i) = bare (hget r i);
    ca_value : forall i v, n_cvalue (hget h i) = Some v -> value_at i v;
    ca_comment : forall i v, n_ccomment (hget h i) = Some v -> comment_at i v;
    ca_elements : forall i v l, ~ In i X -> n_cels (hget h i) = Some v -> elements_at i l -> v = l;
    ca_entries : forall i v l, ~ In i X -> n_centries (hget h i) = Some v -> entries_at i l -> v = l;
    ca_items : forall i v, n_citems (hget h i) = Some v -> items_at i v;
    ca_tail : forall i v, n_cels (hget h i) = Some v -> tail_at i v
  }.

  Section Facts.
  Context {X : list nat}.

  Definition fresh : Prop := forall i, n_cvalue (hget r i) = None /\ n_ccomment (hget r i) = None /\
    n_cels (hget r i) = None /\ n_centries (hget r i) = None /\ n_citems (hget r i) = None.
  Lemma cached_start : fresh -> Cached X r.
  Proof. intro H. split; [reflexivity|reflexivity|..]; intros i; intros; pose proof (H i) as G; destruct G as (G1 & G2 & G3 & G4 & G5); congruence. Qed.

  Lemma ca_get h i : Cached X h ->
    n_type (hget h i) = n_type (hget r i) /\ n_key (hget h i) = n_key (hget r i) /\ n_value (hget h i) = n_value (hget r i) /\
    n_comments (hget h i) = n_comments (hget r i) /\
    n_elements (hget h i) = n_elements (hget r i) /\ n_items (hget h i) = n_items (hget r i) /\ n_entries (hget h i) = n_entries (hget r i) /\
    n_conts (hget h i) = n_conts (hget r i) /\ n_lines (hget h i) = n_lines (hget r i) /\
    n_mirror (hget h i) = n_mirror (hget r i) /\ n_extend (hget h i) = n_extend (hget r i) /\ n_parent (hget h i) = n_parent (hget r i).
  Proof. intro H. pose proof (bare_fields _ _ (ca_bare _ _ H i)). tauto. Qed.

  Lemma ca_type h i : Cached X h -> n_type (hget h i) = n_type (hget r i). Proof. intro H. now apply (ca_get h i). Qed.
  Lemma ca_key h i : Cached X h -> n_key (hget h i) = n_key (hget r i). Proof. intro H. now apply (ca_get h i). Qed.
  Lemma ca_els h i : Cached X h -> n_elements (hget h i) = n_elements (hget r i). Proof. intro H. now apply (ca_get h i). Qed.
  Lemma ca_its h i : Cached X h -> n_items (hget h i) = n_items (hget r i). Proof. intro H. now apply (ca_get h i). Qed.
  Lemma ca_ents h i : Cached X h -> n_entries (hget h i) = n_entries (hget r i). Proof. intro H. now apply (ca_get h i). Qed.
  Lemma ca_mirror h i : Cached X h -> n_mirror (hget h i) = n_mirror (hget r i). Proof. intro H. now apply (ca_get h i). Qed.
  Lemma ca_extend h i : Cached X h -> n_extend (hget h i) = n_extend (hget r i). Proof. intro H. now apply (ca_get h i). Qed.
  Lemma ca_comments h i : Cached X h -> n_comments (hget h i) = n_comments (hget r i). Proof. intro H. now apply (ca_get h i). Qed.
  Lemma ca_parent h i : Cached X h -> n_parent (hget h i) = n_parent (hget r i). Proof. intro H. now apply (ca_get h i). Qed.
  Lemma ca_own h i : Cached X h -> own_value inp (hget h i) = own_value inp (hget r i).
  Proof. intro H. destruct (ca_get h i H) as (A & _ & B & _ & _ & _ & _ & C & D & _). unfold own_value. now rewrite A, B, C, D. Qed.
  Lemma existsb_ext' {A} (f g : A -> bool) l : (forall x, f x = g x) -> existsb f l = existsb g l.
  Proof. intro H. induction l; cbn; [reflexivity|]. now rewrite H, IHl. Qed.
  Lemma ca_has_key h l x : Cached X h -> has_key h l x = has_key r l x.
  Proof.
    intro H. unfold has_key. apply existsb_ext'. intro y. unfold key_of. now rewrite !(ca_key h) by assumption.
  Qed.

  Lemma hget_hupd h e f j : hget (hupd h e f) j = if (Nat.eqb e j && Nat.ltb e (length h))%bool then f (hget h e) else hget h j.
  Proof.
    unfold hupd. destruct (Nat.ltb_spec e (length h)) as [H|H].
    - rewrite hget_upd by assumption. now rewrite andb_true_r.
    - rewrite andb_false_r. unfold hget. f_equal. clear j. revert e H.
      induction h as [|x h IH]; intros [|e] H; cbn in *; try reflexivity; try lia. f_equal. apply IH. lia.
  Qed.
  Lemma hupd_length h e f : length (hupd h e f) = length h.
  Proof. unfold hupd. apply upd_length. Qed.

  Lemma cached_upd h e f : Cached X h ->
    (forall n, bare (f n) = bare n) ->
    (forall v, n_cvalue (f (hget h e)) = Some v -> value_at e v) ->
    (forall v, n_ccomment (f (hget h e)) = Some v -> comment_at e v) ->
    (forall v l, ~ In e X -> n_cels (f (hget h e)) = Some v -> elements_at e l -> v = l) ->
    (forall v l, ~ In e X -> n_centries (f (hget h e)) = Some v -> entries_at e l -> v = l) ->
    (forall v, n_citems (f (hget h e)) = Some v -> items_at e v) ->
    (forall v, n_cels (f (hget h e)) = Some v -> tail_at e v) ->
    Cached X (hupd h e f).
  Proof.
    intros H Hb H1 H2 H3 H4 H5 H6. split.
    - rewrite hupd_length. apply H.
    - intro i. rewrite hget_hupd. destruct (Nat.eqb_spec e i) as [<-|]; cbn [andb]; [destruct (Nat.ltb e _)|]; rewrite ?Hb; apply H.
    - intros i. rewrite hget_hupd. destruct (Nat.eqb_spec e i) as [<-|]; cbn [andb]; [destruct (Nat.ltb e _)|]; [apply H1|apply H|apply H].
    - intros i. rewrite hget_hupd. destruct (Nat.eqb_spec e i) as [<-|]; cbn [andb]; [destruct (Nat.ltb e _)|]; [apply H2|apply H|apply H].
    - intros i. rewrite hget_hupd. destruct (Nat.eqb_spec e i) as [<-|]; cbn [andb]; [destruct (Nat.ltb e _)|]; [apply H3|apply H|apply H].
    - intros i. rewrite hget_hupd. destruct (Nat.eqb_spec e i) as [<-|]; cbn [andb]; [destruct (Nat.ltb e _)|]; [apply H4|apply H|apply H].
    - intros i. rewrite hget_hupd. destruct (Nat.eqb_spec e i) as [<-|]; cbn [andb]; [destruct (Nat.ltb e _)|]; [apply H5|apply H|apply H].
    - intros i. rewrite hget_hupd. destruct (Nat.eqb_spec e i) as [<-|]; cbn [andb]; [destruct (Nat.ltb e _)|]; [apply H6|apply H|apply H].
  Qed.

  Lemma elements_tail e v : elements_at e v -> tail_at e v.
  Proof. induction 1; [apply tail_own|eapply tail_next; eassumption]. Qed.
  Lemma cached_value h e v : Cached X h -> value_at e v -> Cached X (hupd h e (set_cvalue (Some v))).
  Proof. intros H Hv. apply cached_upd; [assumption|reflexivity|..]; cbn; intros; try match goal with H : Some _ = Some _ |- _ => injection H as <- end; first [eapply ca_value; eassumption|eapply ca_comment; eassumption|eapply ca_elements; eassumption|eapply ca_entries; eassumption|eapply ca_items; eassumption|eapply elements_at_fun; eassumption|eapply entries_at_fun; eassumption|eapply ca_tail; eassumption|eapply elements_tail; eassumption|congruence]. Qed.
  Lemma cached_comment h e v : Cached X h -> comment_at e v -> Cached X (hupd h e (set_ccomment (Some v))).
  Proof. intros H Hv. apply cached_upd; [assumption|reflexivity|..]; cbn; intros; try match goal with H : Some _ = Some _ |- _ => injection H as <- end; first [eapply ca_value; eassumption|eapply ca_comment; eassumption|eapply ca_elements; eassumption|eapply ca_entries; eassumption|eapply ca_items; eassumption|eapply elements_at_fun; eassumption|eapply entries_at_fun; eassumption|eapply ca_tail; eassumption|eapply elements_tail; eassumption|congruence]. Qed.
  Lemma cached_elements h e v : Cached X h -> elements_at e v -> Cached X (hupd h e (set_cels (Some v))).
  Proof. intros H Hv. apply cached_upd; [assumption|reflexivity|..]; cbn; intros; try match goal with H : Some _ = Some _ |- _ => injection H as <- end; first [eapply ca_value; eassumption|eapply ca_comment; eassumption|eapply ca_elements; eassumption|eapply ca_entries; eassumption|eapply ca_items; eassumption|eapply elements_at_fun; eassumption|eapply entries_at_fun; eassumption|eapply ca_tail; eassumption|eapply elements_tail; eassumption|congruence]. Qed.
  Lemma cached_entries h e v : Cached X h -> entries_at e v -> Cached X (hupd h e (set_centries (Some v))).
  Proof. intros H Hv. apply cached_upd; [assumption|reflexivity|..]; cbn; intros; try match goal with H : Some _ = Some _ |- _ => injection H as <- end; first [eapply ca_value; eassumption|eapply ca_comment; eassumption|eapply ca_elements; eassumption|eapply ca_entries; eassumption|eapply ca_items; eassumption|eapply elements_at_fun; eassumption|eapply entries_at_fun; eassumption|eapply ca_tail; eassumption|eapply elements_tail; eassumption|congruence]. Qed.
  Lemma cached_items h e v : Cached X h -> items_at e v -> Cached X (hupd h e (set_citems (Some v))).
  Proof. intros H Hv. apply cached_upd; [assumption|reflexivity|..]; cbn; intros; try match goal with H : Some _ = Some _ |- _ => injection H as <- end; first [eapply ca_value; eassumption|eapply ca_comment; eassumption|eapply ca_elements; eassumption|eapply ca_entries; eassumption|eapply ca_items; eassumption|eapply elements_at_fun; eassumption|eapply entries_at_fun; eassumption|eapply ca_tail; eassumption|eapply elements_tail; eassumption|congruence]. Qed.

  End Facts.
  (** * Running the accessors *)

  Lemma value_run e p : path e p -> forall X fuel h, Cached X h -> length p <= fuel ->
    exists v h', value inp fuel e h = (h', Ok v) /\ value_at e v /\ Cached X h'.
  Proof.
    induction 1 as [e H1 H2|e m p Hf Hp IH]; intros X [|fuel] h HC Hl; cbn in Hl; try lia;
      cbn [value]; unfold mbind, hnode; destruct (n_cvalue (hget h e)) as [v|] eqn:Ev;
      try (exists v, h; split; [reflexivity|]; split; [eapply ca_value; eassumption|assumption]);
      rewrite (ca_mirror h e HC).
    - rewrite H1. unfold hset, ret. eexists. eexists. split; [reflexivity|]. rewrite (ca_own h e HC).
      assert (value_at e (own_value inp (hget r e))) by now apply va_own. split; [assumption|now apply cached_value].
    - destruct Hf as [Hf|[Hf1 Hf2]].
      + rewrite Hf. destruct (IH X fuel h HC) as (v & h' & E & Hv & HC'); [lia|]. exists v, h'. split; [exact E|].
        split; [eapply va_mirror; eassumption|assumption].
      + rewrite Hf1. unfold hset, ret. eexists. eexists. split; [reflexivity|]. rewrite (ca_own h e HC).
        assert (value_at e (own_value inp (hget r e))) by now apply va_own. split; [assumption|now apply cached_value].
  Qed.

  Lemma items_run e p : path e p -> (forall x, In x p -> n_extend (hget r x) <> None -> n_items (hget r x) <> None) ->
    forall X fuel h, Cached X h -> length p <= fuel ->
    exists v h', items fuel e h = (h', Ok v) /\ items_at e v /\ Cached X h'.
  Proof.
    induction 1 as [e H1 H2|e m p Hf Hp IH]; intros Hi X [|fuel] h HC Hl; cbn in Hl; try lia;
      cbn [items]; unfold mbind, hnode; rewrite (ca_mirror h e HC), (ca_extend h e HC).
    - rewrite H1, H2, (ca_its h e HC). exists (match n_items (hget r e) with Some l => l | None => [] end), h.
      split; [destruct (n_items (hget r e)); reflexivity|]. split; [now apply ia_own|assumption].
    - assert (Hi' : forall x, In x p -> n_extend (hget r x) <> None -> n_items (hget r x) <> None) by (intros; apply Hi; [now right|assumption]).
      destruct Hf as [Hf|[Hf1 Hf2]].
      + rewrite Hf. destruct (IH Hi' X fuel h HC) as (v & h' & E & Hv & HC'); [lia|]. exists v, h'. split; [exact E|].
        split; [eapply ia_mirror; eassumption|assumption].
      + rewrite Hf1, Hf2. destruct (n_citems (hget h e)) as [v|] eqn:Ev.
        { exists v, h. split; [reflexivity|]. split; [eapply ca_items; eassumption|assumption]. }
        destruct (IH Hi' X fuel h HC) as (v & h' & E & Hv & HC'); [lia|]. rewrite E.
        unfold lift. rewrite (ca_its h e HC). destruct (n_items (hget r e)) as [own|] eqn:Eo.
        2:{ exfalso. apply (Hi e); [now left|congruence|assumption]. }
        cbn [key_or]. unfold hset, ret. exists (v ++ own). eexists. split; [reflexivity|].
        assert (items_at e (v ++ own)) by (eapply ia_extend; eassumption). split; [assumption|now apply cached_items].
  Qed.

  (** starting a computation at [e] *)
  Lemma cached_open X h e f : Cached X h -> (forall n, bare (f n) = bare n) ->
    (forall n, n_cvalue (f n) = n_cvalue n) -> (forall n, n_ccomment (f n) = n_ccomment n) -> (forall n, n_citems (f n) = n_citems n) ->
    (forall v, n_cels (f (hget h e)) = Some v -> n_cels (hget h e) = Some v \/ v = n_elements (hget r e)) ->
    Cached (e :: X) (hupd h e f).
  Proof.
    intros H Hb H1 H2 H3 H4.
    assert (W : Cached (e :: X) h).
    { destruct H. split; try assumption; intros i v l Hn; [apply ca_elements0|apply ca_entries0]; intro Hi; apply Hn; now right. }
    apply cached_upd; try assumption.
    - intros v. rewrite H1. apply H.
    - intros v. rewrite H2. apply H.
    - intros v l Hn. destruct Hn. now left.
    - intros v l Hn. destruct Hn. now left.
    - intros v. rewrite H3. apply H.
    - intros v Hv. destruct (H4 v Hv) as [G | ->]; [eapply ca_tail; eassumption|apply tail_own].
  Qed.
  Lemma cached_close X h e : Cached (e :: X) h -> (In e X \/
    (forall v l, n_cels (hget h e) = Some v -> elements_at e l -> v = l) /\
    (forall v l, n_centries (hget h e) = Some v -> entries_at e l -> v = l)) -> Cached X h.
  Proof.
    intros H HX. destruct H. split; try assumption; intros i v l Hn E G.
    - destruct (Nat.eq_dec i e) as [->|Hne]; [destruct HX as [|[HX _]]; [contradiction|eauto]|].
      apply (ca_elements0 i v l); [|assumption..]. intros [->|]; contradiction.
    - destruct (Nat.eq_dec i e) as [->|Hne]; [destruct HX as [|[_ HX]]; [contradiction|eauto]|].
      apply (ca_entries0 i v l); [|assumption..]. intros [->|]; contradiction.
  Qed.

  Lemma value_keeps fuel : forall e X h h' v, Cached X h -> value inp fuel e h = (h', v) -> Cached X h' /\ forall x, v = Ok x -> value_at e x.
  Proof.
    induction fuel as [|f IH]; intros e X h h' v HC; [intros [= <- <-]; split; [assumption|discriminate]|].
    cbn [value]. unfold mbind, hnode, ret, hset. destruct (n_cvalue (hget h e)) as [w|] eqn:Ew.
    { intros [= <- <-]. split; [assumption|]. intros x [= <-]. eapply ca_value; eassumption. }
    rewrite (ca_mirror h e HC). destruct (n_mirror (hget r e)) as [m|] eqn:Em.
    { intro H. destruct (IH m X h h' v HC H) as [K1 K2]. split; [assumption|]. intros x Hx. eapply va_mirror; eauto. }
    intros [= <- <-]. rewrite (ca_own h e HC). assert (value_at e (own_value inp (hget r e))) by now apply va_own.
    split; [now apply cached_value|]. now intros x [= <-].
  Qed.
  Lemma items_keeps fuel : forall e X h h' v, Cached X h -> items fuel e h = (h', v) -> Cached X h' /\ forall x, v = Ok x -> items_at e x.
  Proof.
    induction fuel as [|f IH]; intros e X h h' v HC; [intros [= <- <-]; split; [assumption|discriminate]|].
    cbn [items]. unfold mbind, hnode, ret, hset. rewrite (ca_mirror h e HC). destruct (n_mirror (hget r e)) as [m|] eqn:Em.
    { intro H. destruct (IH m X h h' v HC H) as [K1 K2]. split; [assumption|]. intros x Hx. eapply ia_mirror; eauto. }
    rewrite (ca_extend h e HC). destruct (n_extend (hget r e)) as [t|] eqn:Et.
    - destruct (n_citems (hget h e)) as [w|] eqn:Ew.
      { intros [= <- <-]. split; [assumption|]. intros x [= <-]. eapply ca_items; eassumption. }
      destruct (items f t h) as [h1 w] eqn:E1. destruct (IH t X h h1 w HC E1) as [K1 K2].
      destruct w as [w|]; [|intros [= <- <-]; split; [assumption|discriminate]].
      unfold lift. rewrite (ca_its h e HC). destruct (n_items (hget r e)) as [own|] eqn:Eo; cbn [key_or]; intros [= <- <-]; [|split; [assumption|discriminate]].
      assert (items_at e (w ++ own)) by (eapply ia_extend; eauto). split; [now apply cached_items|]. now intros x [= <-].
    - rewrite (ca_its h e HC). intro H. assert (h' = h /\ v = Ok (match n_items (hget r e) with Some l => l | None => [] end)) as [-> ->].
      { destruct (n_items (hget r e)); injection H as <- <-; auto. }
      split; [assumption|]. intros x [= <-]. now apply ia_own.
  Qed.

  (** [fuel] suffices for what ends, and what ends does not meet [X] *)
  Definition fits (fuel : nat) (X : list nat) (e : nat) : Prop :=
    forall p, path e p -> length p <= fuel /\ forall x, In x p -> ~ In x X.
  Lemma fits_next fuel X e m : fits (S fuel) X e -> follow e m -> fits fuel (e :: X) m.
  Proof.
    intros H Hf p Hp. assert (path e (e :: p)) as He by (eapply path_on; eassumption). destruct (H _ He) as [H1 H2]. cbn in H1.
    split; [lia|]. intros x Hx [<-|Hx2]; [|now apply (H2 x); [right|]].
    apply path_nodup in He. apply NoDup_cons_iff in He. now destruct He.
  Qed.
  Lemma fits_weak fuel X e m : fits fuel (e :: X) m -> fits fuel X m.
  Proof. intros H p Hp. destruct (H p Hp) as [H1 H2]. split; [assumption|]. intros x Hx Hi. apply (H2 x Hx). now right. Qed.
  Lemma fits_all e : fits (S (length r)) [] e.
  Proof. intros p Hp. split; [now apply (path_length e)|]. intros x _ []. Qed.

  Lemma entries_path e l : entries_at e l -> exists p, path e p.
  Proof.
    induction 1 as [e own H1 H2 H3|e m l H1 Hm (p & Hp)|e t l own H1 H2 H3 Ht (p & Hp)].
    - exists [e]. now apply path_end.
    - exists (e :: p). eapply path_on; [left; eassumption|assumption].
    - exists (e :: p). eapply path_on; [right; split; eassumption|assumption].
  Qed.
  Lemma elements_path e l : elements_at e l -> exists p, path e p.
  Proof.
    induction 1 as [e H1 H2|e t l H1 H2 Ht (p & Hp)].
    - exists [e]. now apply path_end.
    - exists (e :: p). eapply path_on; [right; split; eassumption|assumption].
  Qed.

  (** only the cached entries / elements change *)
  Definition but_entries (h h' : heap) : Prop := forall i, n_cels (hget h' i) = n_cels (hget h i).
  Definition but_elements (h h' : heap) : Prop := forall i, n_centries (hget h' i) = n_centries (hget h i).

  Lemma filter_keys X h own l : Cached X h -> filter (fun x => negb (has_key h own x)) l = filter (fun x => negb (has_key r own x)) l.
  Proof. intro HC. apply filter_ext. intro x. now rewrite (ca_has_key h own x HC). Qed.

  Lemma entries_keeps fuel : forall e X h h' v, Cached X h -> fits fuel X e -> entries fuel e h = (h', v) ->
    Cached X h' /\ but_entries h h' /\ forall l, entries_at e l -> v = Ok l.
  Proof.
    induction fuel as [|f IH]; intros e X h h' v HC HF.
    { intros [= <- <-]. split; [assumption|]. split; [intro; reflexivity|]. intros l Hl. apply entries_path in Hl as (p & Hp).
      destruct (HF p Hp) as [HF1 _]. inversion Hp; subst; cbn in HF1; lia. }
    cbn [entries]. unfold mbind, hnode, ret, hset. rewrite (ca_mirror h e HC). destruct (n_mirror (hget r e)) as [m|] eqn:Em.
    { intro H. destruct (IH m X h h' v HC (fits_weak _ _ _ _ (fits_next _ _ _ _ HF (or_introl Em))) H) as (K1 & K2 & K3).
      split; [assumption|]. split; [assumption|]. intros l Hl. inversion Hl; subst; try congruence. apply K3. congruence. }
    assert (HX : forall l, entries_at e l -> ~ In e X).
    { intros l Hl. apply entries_path in Hl as (p & Hp). destruct (HF p Hp) as [_ HF2]. apply HF2. inversion Hp; now left. }
    destruct (n_centries (hget h e)) as [w|] eqn:Ew.
    { intros [= <- <-]. split; [assumption|]. split; [intro; reflexivity|]. intros l Hl. f_equal. eapply ca_entries; [exact HC|exact (HX l Hl)|eassumption..]. }
    rewrite (ca_ents h e HC). unfold lift. destruct (n_entries (hget r e)) as [own|] eqn:Eo; cbn [key_or].
    2:{ intros [= <- <-]. split; [assumption|]. split; [intro; reflexivity|]. intros l Hl. inversion Hl; subst; congruence. }
    rewrite (ca_extend h e HC). set (h1 := hupd h e (set_centries (Some own))).
    assert (B1 : but_entries h h1). { intro i. unfold h1. rewrite hget_hupd. destruct (Nat.eqb_spec e i) as [<-|]; [destruct (Nat.ltb e _)|]; reflexivity. }
    destruct (n_extend (hget r e)) as [t|] eqn:Et.
    2:{ intros [= <- <-]. assert (entries_at e own) by now apply ea_own. split; [now apply cached_entries|]. split; [assumption|].
        intros l Hl. f_equal. eapply entries_at_fun; eassumption. }
    assert (HC1 : Cached (e :: X) h1) by (apply cached_open; [assumption|reflexivity..|cbn; intros v0 Hv0; first [now left|right; now injection Hv0 as <-]]).
    destruct (entries f t h1) as [h2 w] eqn:E1.
    destruct (IH t (e :: X) h1 h2 w HC1 (fits_next _ _ _ _ HF (or_intror (conj Em Et))) E1) as (K1 & K2 & K3).
    assert (HL : forall l, entries_at e l -> exists l', w = Ok l' /\ l = filter (fun x => negb (has_key r own x)) l' ++ own).
    { intros l Hl. inversion Hl; subst; try congruence. exists l0. split; [apply K3; congruence|]. now replace own0 with own by congruence. }
    destruct w as [w|ex].
    - unfold get. rewrite (filter_keys _ h2 own w K1). set (res := _ ++ own). intros [= <- <-].
      assert (G : forall l, entries_at e l -> res = l). { intros l Hl. destruct (HL l Hl) as (l' & [= <-] & ->). reflexivity. }
      assert (B2 : but_entries h (hupd h2 e (set_centries (Some res)))).
      { intro i. rewrite hget_hupd. rewrite <- B1, <- K2. destruct (Nat.eqb_spec e i) as [<-|]; [destruct (Nat.ltb e _)|]; reflexivity. }
      split; [|split; [assumption|intros l Hl; f_equal; auto]].
      apply (cached_close X _ e).
      + apply cached_upd; try assumption; try reflexivity; cbn; intros; try (eapply (ca_value _ _ K1); eassumption); try (eapply (ca_comment _ _ K1); eassumption);
          try (eapply (ca_items _ _ K1); eassumption); try (eapply (ca_tail _ _ K1); eassumption); exfalso; match goal with H : ~ _ |- _ => apply H; now left end.
      + destruct (in_dec Nat.eq_dec e X) as [Hi|Hi]; [now left|]. right. split.
        * intros v l Ev Hl. rewrite B2 in Ev. exact (ca_elements _ _ HC e v l Hi Ev Hl).
        * intros v l Ev Hl. rewrite hget_hupd, Nat.eqb_refl in Ev. cbn [andb] in Ev.
          assert (Le : length h2 = length h). { rewrite (ca_len _ _ K1). symmetry. apply (ca_len _ _ HC). }
          rewrite Le in Ev. assert (e < length h) as L.
          { rewrite (ca_len _ _ HC). destruct (Nat.lt_ge_cases e (length r)) as [|L]; [assumption|]. unfold hget in Et. rewrite nth_overflow in Et by assumption. discriminate. }
          apply Nat.ltb_lt in L. rewrite L in Ev. cbn in Ev. injection Ev as <-. now apply G.
    - intros [= <- <-]. split; [|split].
      + apply (cached_close X _ e); [assumption|]. destruct (in_dec Nat.eq_dec e X) as [Hi|Hi]; [now left|]. right. split.
        * intros v l Ev Hl. rewrite K2, B1 in Ev. exact (ca_elements _ _ HC e v l Hi Ev Hl).
        * intros v l Ev Hl. destruct (HL l Hl) as (l' & [=] & _).
      + intro i. now rewrite K2, B1.
      + intros l Hl. destruct (HL l Hl) as (l' & [=] & _).
  Qed.

  Lemma elements_keeps fuel : forall e X h h' v, Cached X h -> fits fuel X e -> elements fuel e h = (h', v) ->
    Cached X h' /\ but_elements h h' /\ (forall l, v = Ok (Some l) -> n_mirror (hget r e) = None /\ tail_at e l) /\ forall l, elements_at e l -> v = Ok (Some l).
  Proof.
    induction fuel as [|f IH]; intros e X h h' v HC HF.
    { intros [= <- <-]. split; [assumption|]. split; [intro; reflexivity|]. split; [discriminate|]. intros l Hl. apply elements_path in Hl as (p & Hp).
      destruct (HF p Hp) as [HF1 _]. inversion Hp; subst; cbn in HF1; lia. }
    cbn [elements]. unfold mbind, hnode, ret, hset. rewrite (ca_mirror h e HC). destruct (n_mirror (hget r e)) as [m|] eqn:Em.
    { destruct (elements f m h) as [h1 w] eqn:E1. intro H.
      destruct (IH m X h h1 w HC (fits_weak _ _ _ _ (fits_next _ _ _ _ HF (or_introl Em))) E1) as (K1 & K2 & _ & K3).
      assert (h' = h1 /\ forall l, v <> Ok (Some l)) as [-> Hv] by (destruct w; injection H as <- <-; split; [reflexivity|discriminate|reflexivity|discriminate]).
      split; [assumption|]. split; [assumption|]. split; [intros l Hl; now apply Hv in Hl|]. intros l Hl. inversion Hl; subst; congruence. }
    assert (HX : forall l, elements_at e l -> ~ In e X).
    { intros l Hl. apply elements_path in Hl as (p & Hp). destruct (HF p Hp) as [_ HF2]. apply HF2. inversion Hp; now left. }
    destruct (n_cels (hget h e)) as [w|] eqn:Ew.
    { intros [= <- <-]. split; [assumption|]. split; [intro; reflexivity|]. split; [intros l [= <-]; split; [reflexivity|eapply ca_tail; eassumption]|]. intros l Hl. do 2 f_equal. eapply ca_elements; [exact HC|exact (HX l Hl)|eassumption..]. }
    rewrite (ca_els h e HC), (ca_extend h e HC). set (own := n_elements (hget r e)). set (h1 := hupd h e (set_cels (Some own))).
    assert (B1 : but_elements h h1). { intro i. unfold h1. rewrite hget_hupd. destruct (Nat.eqb_spec e i) as [<-|]; [destruct (Nat.ltb e _)|]; reflexivity. }
    destruct (n_extend (hget r e)) as [t|] eqn:Et.
    2:{ intros [= <- <-]. assert (elements_at e own) by now apply la_own. split; [now apply cached_elements|]. split; [assumption|]. split; [intros l [= <-]; split; [reflexivity|apply tail_own]|].
        intros l Hl. do 2 f_equal. eapply elements_at_fun; eassumption. }
    assert (HC1 : Cached (e :: X) h1) by (apply cached_open; [assumption|reflexivity..|cbn; intros v0 Hv0; first [now left|right; now injection Hv0 as <-]]).
    destruct (elements f t h1) as [h2 w] eqn:E1.
    destruct (IH t (e :: X) h1 h2 w HC1 (fits_next _ _ _ _ HF (or_intror (conj Em Et))) E1) as (K1 & K2 & KT & K3).
    assert (HL : forall l, elements_at e l -> exists l', w = Ok (Some l') /\ l = filter (fun x => negb (has_key r own x)) l' ++ own).
    { intros l Hl. inversion Hl; subst; try congruence. exists l0. split; [apply K3; congruence|reflexivity]. }
    assert (fail : (forall l, w <> Ok (Some l)) -> Cached X h2 /\ but_elements h h2 /\ forall l, ~ elements_at e l).
    { intro Hw. assert (N : forall l, ~ elements_at e l) by (intros l Hl; destruct (HL l Hl) as (l' & E & _); now apply (Hw l')).
      split; [|split; [intro i; now rewrite K2, B1|assumption]].
      apply (cached_close X _ e); [assumption|]. destruct (in_dec Nat.eq_dec e X) as [Hi|Hi]; [now left|]. right. split.
      - intros v' l Ev Hl. destruct (N l Hl).
      - intros w2 l Ev Hl. rewrite K2, B1 in Ev. exact (ca_entries _ _ HC e w2 l Hi Ev Hl). }
    destruct w as [[w|]|ex].
    - unfold get. rewrite (filter_keys _ h2 own w K1). set (res := _ ++ own). intros [= <- <-].
      assert (G : forall l, elements_at e l -> res = l). { intros l Hl. destruct (HL l Hl) as (l' & [= <-] & ->). reflexivity. }
      assert (B2 : but_elements h (hupd h2 e (set_cels (Some res)))).
      { intro i. rewrite hget_hupd. rewrite <- B1, <- K2. destruct (Nat.eqb_spec e i) as [<-|]; [destruct (Nat.ltb e _)|]; reflexivity. }
      assert (TR : tail_at e res) by (unfold res; apply (tail_next e t); [assumption|assumption|now apply KT]).
      split; [|split; [assumption|split; [intros l [= <-]; now split|intros l Hl; do 2 f_equal; auto]]].
      apply (cached_close X _ e).
      + apply cached_upd; try assumption; try reflexivity; cbn; intros; try (eapply (ca_value _ _ K1); eassumption); try (eapply (ca_comment _ _ K1); eassumption);
          try (eapply (ca_items _ _ K1); eassumption); try (eapply (ca_tail _ _ K1); eassumption); try (match goal with H : Some _ = Some _ |- tail_at _ _ => injection H as <-; assumption end); exfalso; match goal with H : ~ _ |- _ => apply H; now left end.
      + destruct (in_dec Nat.eq_dec e X) as [Hi|Hi]; [now left|]. right. split.
        * intros v l Ev Hl. rewrite hget_hupd, Nat.eqb_refl in Ev. cbn [andb] in Ev.
          assert (Le : length h2 = length h). { rewrite (ca_len _ _ K1). symmetry. apply (ca_len _ _ HC). }
          rewrite Le in Ev. assert (e < length h) as L.
          { rewrite (ca_len _ _ HC). destruct (Nat.lt_ge_cases e (length r)) as [|L]; [assumption|]. unfold hget in Et. rewrite nth_overflow in Et by assumption. discriminate. }
          apply Nat.ltb_lt in L. rewrite L in Ev. cbn in Ev. injection Ev as <-. now apply G.
        * intros v l Ev Hl. rewrite B2 in Ev. exact (ca_entries _ _ HC e v l Hi Ev Hl).
    - intros [= <- <-]. destruct fail as (F1 & F2 & F3); [discriminate|]. split; [assumption|]. split; [assumption|]. split; [discriminate|]. intros l Hl. destruct (F3 l Hl).
    - intros [= <- <-]. destruct fail as (F1 & F2 & F3); [discriminate|]. split; [assumption|]. split; [assumption|]. split; [discriminate|]. intros l Hl. destruct (F3 l Hl).
  Qed.

  (** ** What ends can be read *)

  Lemma value_ends e p : path e p -> exists v, value_at e v.
  Proof.
    induction 1 as [e H1 H2|e m p Hf Hp (v & IH)]; [eexists; now apply va_own|].
    destruct Hf as [Hf|[Hf1 Hf2]]; [exists v; eapply va_mirror; eassumption|eexists; now apply va_own].
  Qed.
  Lemma items_ends e p : path e p -> (forall x, In x p -> n_extend (hget r x) <> None -> n_items (hget r x) <> None) -> exists l, items_at e l.
  Proof.
    induction 1 as [e H1 H2|e m p Hf Hp IH]; intro Hi; [eexists; now apply ia_own|].
    destruct IH as (l & IH); [intros; apply Hi; [now right|assumption]|].
    destruct Hf as [Hf|[Hf1 Hf2]]; [exists l; eapply ia_mirror; eassumption|].
    destruct (n_items (hget r e)) as [own|] eqn:Eo; [eexists; eapply ia_extend; eassumption|].
    exfalso. apply (Hi e); [now left|congruence|assumption].
  Qed.
  Lemma entries_ends e p : path e p -> (forall x, In x p -> n_mirror (hget r x) = None -> n_entries (hget r x) <> None) -> exists l, entries_at e l.
  Proof.
    induction 1 as [e H1 H2|e m p Hf Hp IH]; intro Hi.
    { destruct (n_entries (hget r e)) as [own|] eqn:Eo; [eexists; apply ea_own; eassumption|]. exfalso. apply (Hi e); [now left|assumption|assumption]. }
    destruct IH as (l & IH); [intros; apply Hi; [now right|assumption]|].
    destruct Hf as [Hf|[Hf1 Hf2]]; [exists l; eapply ea_mirror; eassumption|].
    destruct (n_entries (hget r e)) as [own|] eqn:Eo; [eexists; eapply ea_extend; eassumption|].
    exfalso. apply (Hi e); [now left|assumption|assumption].
  Qed.
  Lemma elements_ends e p : path e p -> (forall x, In x p -> n_mirror (hget r x) = None) -> exists l, elements_at e l.
  Proof.
    induction 1 as [e H1 H2|e m p Hf Hp IH]; intro Hi; [eexists; now apply la_own|].
    destruct IH as (l & IH); [intros; apply Hi; now right|].
    destruct Hf as [Hf|[Hf1 Hf2]]; [rewrite (Hi e) in Hf; [discriminate|now left]|]. eexists. eapply la_extend; eassumption.
  Qed.

  Lemma comment_run e : forall X h, Cached X h ->
    (exists x, n_comments (hget r e) = Some [x] /\ l_text x = None /\ comment e h = (h, Raise KeyError)) \/
    (exists v h', comment e h = (h', Ok v) /\ comment_at e v /\ Cached X h').
  Proof.
    intros X h HC. unfold comment, mbind, hnode, ret, hset, raise. destruct (n_ccomment (hget h e)) as [v|] eqn:Ev.
    { right. exists v, h. split; [reflexivity|]. split; [eapply ca_comment; eassumption|assumption]. }
    rewrite (ca_comments h e HC). pose proof (@cached_comment X h e) as K. unfold comment_at in *.
    destruct (n_comments (hget r e)) as [[|x [|y cs]]|] eqn:Ec.
    - right. exists (multi_comment []). eexists. split; [reflexivity|]. split; [reflexivity|]. apply K; [assumption|reflexivity].
    - destruct (l_text x) as [t|] eqn:Et.
      + right. exists (Some t). eexists. split; [reflexivity|]. split; [split; [discriminate|reflexivity]|].
        apply K; [assumption|split; [discriminate|reflexivity]].
      + left. exists x. auto.
    - right. eexists. eexists. split; [reflexivity|]. split; [reflexivity|]. apply K; [assumption|reflexivity].
    - right. exists None. eexists. split; [reflexivity|]. split; [reflexivity|]. apply K; [assumption|reflexivity].
  Qed.
  Lemma comment_keeps e X h h' v : Cached X h -> comment e h = (h', v) -> Cached X h'.
  Proof.
    intros HC H. destruct (comment_run e X h HC) as [(x & _ & _ & E)|(w & h1 & E & _ & K)]; rewrite H in E; injection E as -> _; assumption.
  Qed.

  (** ** raw() *)

  Definition keeping {A} (m : hM A) : Prop := forall h h' v, Cached [] h -> m h = (h', v) -> Cached [] h'.
  Lemma keeping_ret {A} (x : A) : keeping (ret x). Proof. intros h h' v H [= <- _]. assumption. Qed.
  Lemma keeping_raise {A} e : keeping (raise (A := A) e). Proof. intros h h' v H [= <- _]. assumption. Qed.
  Lemma keeping_lift {A} (x : res A) : keeping (lift x). Proof. intros h h' v H [= <- _]. assumption. Qed.
  Lemma keeping_bind {A B} (m : hM A) (k : A -> hM B) : keeping m -> (forall a, keeping (k a)) -> keeping (mbind m k).
  Proof.
    intros Hm Hk h h' v H. unfold mbind. destruct (m h) as [h1 [a|e]] eqn:E; [|intros [= <- _]; eapply Hm; eassumption].
    intro E2. eapply Hk; [|exact E2]. eapply Hm; eassumption.
  Qed.
  Lemma keeping_mapM {A B} (m : A -> hM B) : (forall x, keeping (m x)) -> forall l, keeping (mapM m l).
  Proof.
    intros Hm l. induction l as [|x l IH]; cbn [mapM]; [apply keeping_ret|].
    apply keeping_bind; [apply Hm|]. intro y. apply keeping_bind; [assumption|]. intro. apply keeping_ret.
  Qed.
  Lemma keeping_value fuel e : keeping (value inp fuel e). Proof. intros h h' v H E. now apply (value_keeps fuel e [] h h' v). Qed.
  Lemma keeping_items fuel e : keeping (items fuel e). Proof. intros h h' v H E. now apply (items_keeps fuel e [] h h' v). Qed.
  Lemma keeping_comment e : keeping (comment e). Proof. intros h h' v H E. eapply comment_keeps; eassumption. Qed.
  Lemma keeping_entries e : keeping (fun h => entries (S (length h)) e h).
  Proof. intros h h' v H E. apply (entries_keeps (S (length h)) e [] h h' v); try assumption. rewrite (ca_len _ _ H). apply fits_all. Qed.
  Lemma keeping_elements e : keeping (fun h => elements (S (length h)) e h).
  Proof. intros h h' v H E. apply (elements_keeps (S (length h)) e [] h h' v); try assumption. rewrite (ca_len _ _ H). apply fits_all. Qed.
  Lemma keeping_raw fuel : forall e, keeping (raw inp fuel e).
  Proof.
    induction fuel as [|f IH]; intro e; [apply keeping_raise|]. intros h h' v HC. cbn [raw]. unfold mbind at 1, get. unfold mbind at 1, hnode.
    assert (Hm : forall l, keeping (mapM (raw inp f) l)) by (intro l; now apply keeping_mapM).
    assert (He : keeping (entries (S (length h)) e)).
    { intros h1 h2 w H1 E. apply (keeping_entries e h1 h2 w H1). now rewrite (ca_len _ _ H1), <- (ca_len _ _ HC). }
    assert (Hl : keeping (elements (S (length h)) e)).
    { intros h1 h2 w H1 E. apply (keeping_elements e h1 h2 w H1). now rewrite (ca_len _ _ H1), <- (ca_len _ _ HC). }
    revert HC. generalize (S (length h)) He Hl. clear He Hl. intros big He Hl HC.
    match goal with |- ?m h = _ -> _ => enough (keeping m) as K by (now apply K) end.
    apply keeping_bind.
    { destruct (n_comments (hget h e)); [apply keeping_bind; [apply keeping_comment|intro]|]; apply keeping_ret. }
    intro c. destruct (n_type (hget h e)); repeat first
      [ apply keeping_ret | apply keeping_lift | apply keeping_value | apply keeping_items | exact He | exact Hl | apply Hm | apply keeping_raise
      | apply keeping_bind; [|intro] | match goal with |- keeping (match ?x with _ => _ end) => destruct x end ].
  Qed.
End Reads.

(** * Repeating raw() *)

(** [h'] has at least the cached results of [h], no new values on mirrors, and is otherwise the same *)
Definition knows_more (h h' : heap) : Prop :=
  length h = length h' /\
  forall i, bare (hget h i) = bare (hget h' i) /\
    (forall v, n_cvalue (hget h i) = Some v -> n_cvalue (hget h' i) = Some v) /\
    (forall v, n_ccomment (hget h i) = Some v -> n_ccomment (hget h' i) = Some v) /\
    (forall v, n_cels (hget h i) = Some v -> n_cels (hget h' i) = Some v) /\
    (forall v, n_centries (hget h i) = Some v -> n_centries (hget h' i) = Some v) /\
    (forall v, n_citems (hget h i) = Some v -> n_citems (hget h' i) = Some v) /\
    (n_mirror (hget h i) <> None -> n_cvalue (hget h' i) = n_cvalue (hget h i)).

Lemma more_refl h : knows_more h h.
Proof. split; [reflexivity|]. intro i. repeat split; auto. Qed.
Lemma more_trans a b c : knows_more a b -> knows_more b c -> knows_more a c.
Proof.
  intros [H1 H2] [G1 G2]. split; [congruence|]. intro i. specialize (H2 i). specialize (G2 i).
  destruct H2 as (A & B & C & D & E & F & G), G2 as (A' & B' & C' & D' & E' & F' & G'). split; [congruence|]. repeat split; eauto.
  intro Hm. rewrite G', G; auto. apply bare_fields in A as (_ & _ & _ & _ & _ & _ & _ & _ & _ & A & _). now rewrite <- A.
Qed.
Lemma more_get h h' i : knows_more h h' ->
  n_type (hget h' i) = n_type (hget h i) /\ n_key (hget h' i) = n_key (hget h i) /\
  n_comments (hget h' i) = n_comments (hget h i) /\
  n_elements (hget h' i) = n_elements (hget h i) /\ n_items (hget h' i) = n_items (hget h i) /\ n_entries (hget h' i) = n_entries (hget h i) /\
  n_mirror (hget h' i) = n_mirror (hget h i) /\ n_extend (hget h' i) = n_extend (hget h i).
Proof. intros [_ H]. destruct (H i) as (Hb & _). pose proof (bare_fields _ _ Hb) as K. repeat split; symmetry; tauto. Qed.
Lemma more_own inp h h' i : knows_more h h' -> own_value inp (hget h' i) = own_value inp (hget h i).
Proof.
  intros [_ H]. destruct (H i) as (Hb & _). apply bare_fields in Hb as (A & _ & B & _ & _ & _ & _ & C & D & _).
  unfold own_value. now rewrite A, B, C, D.
Qed.

Lemma hupd_oob (h : heap) e f : length h <= e -> hupd h e f = h.
Proof. unfold hupd. revert e. induction h as [|x h IH]; intros [|e] H; cbn in *; try reflexivity; try lia. f_equal. apply IH. lia. Qed.
Lemma hget_oob (h : heap) e : length h <= e -> hget h e = document_node.
Proof. intro H. unfold hget. now apply nth_overflow. Qed.

(** changing one cache that was empty *)
Lemma more_upd h e f : (forall n, bare (f n) = bare n) ->
  (forall v, n_cvalue (hget h e) = Some v -> n_cvalue (f (hget h e)) = Some v) ->
  (forall v, n_ccomment (hget h e) = Some v -> n_ccomment (f (hget h e)) = Some v) ->
  (forall v, n_cels (hget h e) = Some v -> n_cels (f (hget h e)) = Some v) ->
  (forall v, n_centries (hget h e) = Some v -> n_centries (f (hget h e)) = Some v) ->
  (forall v, n_citems (hget h e) = Some v -> n_citems (f (hget h e)) = Some v) ->
  (n_mirror (hget h e) <> None -> n_cvalue (f (hget h e)) = n_cvalue (hget h e)) ->
  knows_more h (hupd h e f).
Proof.
  intros Hb H1 H2 H3 H4 H5 H6. split; [now rewrite hupd_length|]. intro i. rewrite hget_hupd.
  destruct (Nat.eqb_spec e i) as [<-|]; cbn [andb]; [destruct (Nat.ltb e _)|]; rewrite ?Hb; repeat split; auto.
Qed.

Definition replays {A} (m : hM A) (h : heap) (x : A) : Prop := forall h', knows_more h h' -> m h' = (h', Ok x).
(** a successful run adds to the caches and can be repeated *)
Definition repeatable {A} (m : hM A) : Prop :=
  forall h h' x, m h = (h', Ok x) -> knows_more h h' /\ replays m h' x.

Lemma replays_more {A} (m : hM A) h h' x : replays m h x -> knows_more h h' -> replays m h' x.
Proof. intros H G h2 G2. apply H. eapply more_trans; eassumption. Qed.

Lemma repeat_ret {A} (a : A) : repeatable (ret a).
Proof. intros h h' x [= <- <-]. split; [apply more_refl|]. intros h2 _. reflexivity. Qed.
Lemma repeat_raise {A} e : repeatable (raise e : hM A).
Proof. intros h h' x [=]. Qed.
Lemma repeat_lift {A} (a : res A) : repeatable (lift a).
Proof. intros h h' x [= <- ->]. split; [apply more_refl|]. intros h2 _. reflexivity. Qed.
Lemma repeat_bind {A B} (m : hM A) (f : A -> hM B) : repeatable m -> (forall a, repeatable (f a)) -> repeatable (mbind m f).
Proof.
  intros Hm Hf h h' x H. unfold mbind in H. destruct (m h) as [h1 [a|e]] eqn:E; [|discriminate].
  destruct (Hm _ _ _ E) as [K1 R1]. destruct (Hf a _ _ _ H) as [K2 R2]. split; [eapply more_trans; eassumption|].
  intros h2 K. unfold mbind. rewrite (R1 h2) by (eapply more_trans; eassumption). now apply R2.
Qed.
Lemma repeat_mapM {A B} (f : A -> hM B) l : (forall a, repeatable (f a)) -> repeatable (mapM f l).
Proof.
  intro Hf. induction l as [|a l IH]; cbn [mapM]; [apply repeat_ret|].
  apply repeat_bind; [apply Hf|]. intro y. apply repeat_bind; [exact IH|]. intro ys. apply repeat_ret.
Qed.

Lemma set_cache_more h e : (forall v, n_cvalue (hget h e) = None -> n_mirror (hget h e) = None -> knows_more h (hupd h e (set_cvalue (Some v)))) /\
  (forall v, n_ccomment (hget h e) = None -> knows_more h (hupd h e (set_ccomment (Some v)))) /\
  (forall v, n_cels (hget h e) = None -> knows_more h (hupd h e (set_cels (Some v)))) /\
  (forall v, n_centries (hget h e) = None -> knows_more h (hupd h e (set_centries (Some v)))) /\
  (forall v, n_citems (hget h e) = None -> knows_more h (hupd h e (set_citems (Some v)))).
Proof. repeat split; intros; apply more_upd; cbn; intros; first [reflexivity|congruence|assumption]. Qed.

Lemma repeat_value inp fuel : forall e, repeatable (value inp fuel e).
Proof.
  induction fuel as [|f IH]; intro e; [apply repeat_raise|]. intros h h' x H. cbn [value] in H. unfold mbind, hnode, ret, hset in H.
  destruct (n_cvalue (hget h e)) as [v|] eqn:Ev.
  { injection H as <- <-. split; [apply more_refl|]. intros h2 [_ K]. destruct (K e) as (_ & K1 & _).
    cbn [value]. unfold mbind, hnode, ret. now rewrite (K1 _ Ev). }
  destruct (n_mirror (hget h e)) as [m|] eqn:Em.
  { destruct (IH m _ _ _ H) as [K R]. split; [assumption|]. intros h2 K2.
    cbn [value]. unfold mbind, hnode, ret, hset. pose proof (more_trans _ _ _ K K2) as K3.
    destruct (more_get _ _ e K3) as (_ & _ & _ & _ & _ & _ & M & _).
    destruct K3 as [_ K3]. destruct (K3 e) as (_ & _ & _ & _ & _ & _ & K4). rewrite K4, Ev, M, Em by congruence. now apply R. }
  injection H as <- <-. destruct (set_cache_more h e) as (K & _). specialize (K (own_value inp (hget h e)) Ev Em). split; [exact K|].
  intros h2 K2. cbn [value]. unfold mbind, hnode, ret, hset.
  destruct (more_get _ _ e (more_trans _ _ _ K K2)) as (_ & _ & _ & _ & _ & _ & M & _). pose proof (more_own inp _ _ e (more_trans _ _ _ K K2)) as O.
  destruct (Nat.lt_ge_cases e (length h)) as [L|L].
  - destruct K2 as [_ K2]. destruct (K2 e) as (_ & K3 & _). rewrite hget_hupd, Nat.eqb_refl in K3. apply Nat.ltb_lt in L. rewrite L in K3.
    cbn in K3. now rewrite (K3 _ eq_refl).
  - destruct K2 as [K2 _]. rewrite hupd_length in K2. rewrite (hget_oob h2), (hget_oob h) by lia. cbn. rewrite (hupd_oob h2) by lia. reflexivity.
Qed.

Lemma repeat_comment e : repeatable (comment e).
Proof.
  intros h h' x H. unfold comment in *. unfold mbind, hnode, ret, hset, raise in *.
  destruct (n_ccomment (hget h e)) as [v|] eqn:Ev.
  { injection H as <- <-. split; [apply more_refl|]. intros h2 [_ K]. destruct (K e) as (_ & _ & K1 & _). now rewrite (K1 _ Ev). }
  assert (E : h' = hupd h e (set_ccomment (Some x)) /\ (length h <= e -> x = None)).
  { split.
    - destruct (n_comments (hget h e)) as [[|y [|z cs]]|]; try (destruct (l_text y)); congruence.
    - intro L. rewrite (hget_oob h e L) in H. cbn in H. congruence. }
  destruct E as [-> Ex]. destruct (set_cache_more h e) as (_ & K & _). specialize (K x Ev). split; [exact K|].
  intros h2 K2. destruct (Nat.lt_ge_cases e (length h)) as [L|L].
  - destruct K2 as [_ K2]. destruct (K2 e) as (_ & _ & K3 & _). rewrite hget_hupd, Nat.eqb_refl in K3. apply Nat.ltb_lt in L. rewrite L in K3.
    cbn in K3. now rewrite (K3 _ eq_refl).
  - destruct K2 as [K2 _]. rewrite hupd_length in K2. rewrite (hget_oob h2) by lia. cbn. rewrite hupd_oob by lia. now rewrite Ex.
Qed.

Lemma repeat_items fuel : forall e, repeatable (items fuel e).
Proof.
  induction fuel as [|f IH]; intro e; [apply repeat_raise|]. intros h h' x H. cbn [items] in H. unfold mbind, hnode, ret, hset in H.
  destruct (n_mirror (hget h e)) as [m|] eqn:Em.
  { destruct (IH m _ _ _ H) as [K R]. split; [assumption|]. intros h2 K2.
    cbn [items]. unfold mbind, hnode, ret, hset.
    destruct (more_get _ _ e (more_trans _ _ _ K K2)) as (_ & _ & _ & _ & _ & _ & M & _). rewrite M, Em. now apply R. }
  destruct (n_extend (hget h e)) as [t|] eqn:Et.
  2:{ assert (h' = h) as -> by (destruct (n_items (hget h e)); congruence). split; [apply more_refl|]. intros h2 K2.
      cbn [items]. unfold mbind, hnode, ret, hset. destruct (more_get _ _ e K2) as (_ & _ & _ & _ & I & _ & M & T).
      rewrite M, Em, T, Et, I. destruct (n_items (hget h e)); congruence. }
  assert (L : e < length h). { destruct (Nat.lt_ge_cases e (length h)) as [L|L]; [assumption|]. rewrite (hget_oob h e L) in Et. discriminate. }
  destruct (n_citems (hget h e)) as [v|] eqn:Ev.
  { injection H as <- <-. split; [apply more_refl|]. intros h2 K2. cbn [items]. unfold mbind, hnode, ret, hset.
    destruct (more_get _ _ e K2) as (_ & _ & _ & _ & I & _ & M & T). rewrite M, Em, T, Et.
    destruct K2 as [_ K2]. destruct (K2 e) as (_ & _ & _ & _ & _ & K3 & _). now rewrite (K3 _ Ev). }
  destruct (items f t h) as [h1 [l|ex]] eqn:E1; [|discriminate]. unfold lift in H.
  destruct (n_items (hget h e)) as [own|] eqn:Eo; [|discriminate]. cbn [key_or] in H. injection H as <- <-.
  destruct (IH t _ _ _ E1) as [K1 R1].
  assert (Ev1 : forall w, n_citems (hget h1 e) = Some w -> exists h3, hget h3 e = hget h1 e) by eauto. clear Ev1.
  assert (K : knows_more h (hupd h1 e (set_citems (Some (l ++ own))))).
  { destruct K1 as [K1 K2]. split; [now rewrite hupd_length|]. intro i. rewrite hget_hupd.
    destruct (Nat.eqb_spec e i) as [<-|Hd]; cbn [andb]; [|apply K2]. apply Nat.ltb_lt in L. rewrite <- K1, L. cbn.
    destruct (K2 e) as (A & B & C & D & F & G & I). change (bare (set_citems (Some (l ++ own)) (hget h1 e))) with (bare (hget h1 e)).
    split; [assumption|]. split; [assumption|]. split; [assumption|]. split; [assumption|]. split; [assumption|]. split; [congruence|assumption]. }
  split; [exact K|]. intros h2 K2. cbn [items]. unfold mbind, hnode, ret, hset.
  destruct (more_get _ _ e (more_trans _ _ _ K K2)) as (_ & _ & _ & _ & I & _ & M & T). rewrite M, Em, T, Et.
  destruct K2 as [K2 K3]. destruct (K3 e) as (_ & _ & _ & _ & _ & K4 & _). rewrite hget_hupd, Nat.eqb_refl in K4.
  destruct K1 as [K1 _]. apply Nat.ltb_lt in L. rewrite <- K1, L in K4. cbn in K4. now rewrite (K4 _ eq_refl).
Qed.

(** writing a preliminary result first and the final one later *)
Lemma more_twice h h1 h2 e f g :
  knows_more (hupd h e f) h1 -> h2 = hupd h1 e g ->
  (forall n, bare (f n) = bare n) -> (forall n, bare (g n) = bare n) ->
  (forall n, n_cvalue (f n) = n_cvalue n /\ n_ccomment (f n) = n_ccomment n /\ n_citems (f n) = n_citems n) ->
  (forall n, n_cvalue (g n) = n_cvalue n /\ n_ccomment (g n) = n_ccomment n /\ n_citems (g n) = n_citems n) ->
  (n_cels (hget h e) = None /\ (forall n, n_centries (f n) = n_centries n) /\ (forall n, n_centries (g n) = n_centries n)) \/
  (n_centries (hget h e) = None /\ (forall n, n_cels (f n) = n_cels n) /\ (forall n, n_cels (g n) = n_cels n)) ->
  knows_more h h2.
Proof.
  intros [K1 K2] -> Bf Bg Cf Cg Hx. rewrite hupd_length in K1. split; [now rewrite hupd_length|]. intro i. rewrite hget_hupd.
  specialize (K2 i). rewrite hget_hupd in K2.
  destruct (Nat.eqb_spec e i) as [Hd|Hd]; cbn [andb] in K2 |- *; [subst i|exact K2].
  rewrite <- K1. destruct (Nat.ltb e (length h)); [|exact K2].
  destruct K2 as (A & B & C & D & F & G & I). rewrite Bf in A. rewrite Bg.
  destruct (Cf (hget h e)) as (Cf1 & Cf2 & Cf3). destruct (Cg (hget h1 e)) as (Cg1 & Cg2 & Cg3).
  rewrite Cf1 in B. rewrite Cf2 in C. rewrite Cf3 in G. rewrite Cf1 in I. rewrite Cg1, Cg2, Cg3.
  assert (Mf : n_mirror (f (hget h e)) = n_mirror (hget h e)). { pose proof (bare_fields _ _ (Bf (hget h e))) as Q. tauto. }
  rewrite Mf in I.
  split; [assumption|]. split; [assumption|]. split; [assumption|].
  destruct Hx as [(X1 & X2 & X3)|(X1 & X2 & X3)].
  - rewrite X2 in F. rewrite X3. split; [congruence|]. auto.
  - rewrite X2 in D. rewrite X3. split; [auto|]. split; [congruence|]. auto.
Qed.

Lemma repeat_entries fuel : forall e, repeatable (entries fuel e).
Proof.
  induction fuel as [|f IH]; intro e; [apply repeat_raise|]. intros h h' x H. cbn [entries] in H. unfold mbind, hnode, ret, hset in H.
  destruct (n_mirror (hget h e)) as [m|] eqn:Em.
  { destruct (IH m _ _ _ H) as [K R]. split; [assumption|]. intros h2 K2.
    cbn [entries]. unfold mbind, hnode, ret, hset.
    destruct (more_get _ _ e (more_trans _ _ _ K K2)) as (_ & _ & _ & _ & _ & _ & M & _). rewrite M, Em. now apply R. }
  destruct (n_centries (hget h e)) as [v|] eqn:Ev.
  { injection H as <- <-. split; [apply more_refl|]. intros h2 K2. cbn [entries]. unfold mbind, hnode, ret, hset.
    destruct (more_get _ _ e K2) as (_ & _ & _ & _ & I & _ & M & T). rewrite M, Em.
    destruct K2 as [_ K2]. destruct (K2 e) as (_ & _ & _ & _ & K3 & _). now rewrite (K3 _ Ev). }
  unfold lift in H. destruct (n_entries (hget h e)) as [own|] eqn:Eo; [|discriminate]. cbn [key_or] in H.
  assert (L : e < length h). { destruct (Nat.lt_ge_cases e (length h)) as [L|L]; [assumption|]. rewrite (hget_oob h e L) in Eo. discriminate. }
  assert (K : knows_more h h' /\ n_centries (hget h' e) = Some x /\ length h' = length h).
  { destruct (n_extend (hget h e)) as [t|] eqn:Et.
    - destruct (entries f t _) as [h1 [l|ex]] eqn:E1; [|discriminate]. unfold get in H. injection H as <- <-.
      destruct (IH t _ _ _ E1) as [K1 R1]. split; [|split].
      + eapply (more_twice h h1 _ e (set_centries (Some own)) _ K1 eq_refl); try reflexivity; try (intro n; repeat split). right. split; [assumption|]. split; reflexivity.
      + rewrite hget_hupd, Nat.eqb_refl. destruct K1 as [K1 _]. rewrite hupd_length in K1. rewrite <- K1. apply Nat.ltb_lt in L. now rewrite L.
      + rewrite hupd_length. destruct K1 as [K1 _]. rewrite hupd_length in K1. congruence.
    - injection H as <- <-. destruct (set_cache_more h e) as (_ & _ & _ & K & _). split; [now apply K|]. split; [|now rewrite hupd_length].
      rewrite hget_hupd, Nat.eqb_refl. apply Nat.ltb_lt in L. now rewrite L. }
  destruct K as (K & Kx & _). split; [exact K|]. intros h2 K2. cbn [entries]. unfold mbind, hnode, ret, hset.
  destruct (more_get _ _ e (more_trans _ _ _ K K2)) as (_ & _ & _ & _ & I & _ & M & T). rewrite M, Em.
  destruct K2 as [K2 K3]. destruct (K3 e) as (_ & _ & _ & _ & K4 & _). now rewrite (K4 _ Kx).
Qed.

Lemma repeat_elements fuel e : repeatable (let! l := elements fuel e in match l with Some l => ret l | None => raise TypeError end) /\
  forall h h' x, elements fuel e h = (h', Ok x) -> knows_more h h'.
Proof.
  revert e. induction fuel as [|f IH]; intro e; [split; [apply repeat_raise|discriminate]|].
  assert (main : forall h h' x, elements (S f) e h = (h', Ok x) -> knows_more h h' /\
    forall l, x = Some l -> n_mirror (hget h e) = None /\ (e < length h -> n_cels (hget h' e) = Some l) /\ (length h <= e -> l = [])).
  { intros h h' x H. cbn [elements] in H. unfold mbind, hnode, ret, hset in H.
    destruct (n_mirror (hget h e)) as [m|] eqn:Em.
    { destruct (elements f m h) as [h1 [l|ex]] eqn:E1; [|discriminate]. injection H as <- <-.
      split; [now apply (proj2 (IH m) _ _ _ E1)|]. discriminate. }
    destruct (n_cels (hget h e)) as [v|] eqn:Ev.
    { injection H as <- <-. split; [apply more_refl|]. intros l [= <-]. split; [reflexivity|]. split; [auto|].
      intro L. rewrite (hget_oob h e L) in Ev. discriminate. }
    destruct (n_extend (hget h e)) as [t|] eqn:Et.
    - destruct (elements f t _) as [h1 [[l|]|ex]] eqn:E1; [|discriminate|discriminate]. unfold get in H. injection H as <- <-.
      pose proof (proj2 (IH t) _ _ _ E1) as K1. split.
      + eapply (more_twice h h1 _ e _ _ K1 eq_refl); try reflexivity; try (intro n; repeat split). left. split; [assumption|]. split; reflexivity.
      + intros l' [= <-]. split; [reflexivity|]. split.
        * intro L. rewrite hget_hupd, Nat.eqb_refl. destruct K1 as [K1 _]. rewrite hupd_length in K1. rewrite <- K1. apply Nat.ltb_lt in L. now rewrite L.
        * intro L. rewrite (hget_oob h e L) in Et. discriminate.
    - injection H as <- <-. destruct (set_cache_more h e) as (_ & _ & K & _). split; [now apply K|]. intros l [= <-].
      split; [reflexivity|]. split; [|intro L; now rewrite (hget_oob h e L)].
      intro L. rewrite hget_hupd, Nat.eqb_refl. apply Nat.ltb_lt in L. now rewrite L. }
  split; [|intros h h' x H; now apply (main h h' x)].
  intros h h' x H. unfold mbind in H. destruct (elements (S f) e h) as [h1 [[l|]|ex]] eqn:E; try discriminate.
  injection H as <- <-. destruct (main _ _ _ E) as [K Kl]. destruct (Kl l eq_refl) as (Em & Kc & Ko). split; [exact K|].
  intros h2 K2. unfold mbind. cbn [elements]. unfold mbind, hnode, ret, hset.
  destruct (more_get _ _ e (more_trans _ _ _ K K2)) as (_ & _ & _ & _ & I & _ & M & T). rewrite M, Em.
  destruct (Nat.lt_ge_cases e (length h)) as [L|L].
  - destruct K2 as [_ K2]. destruct (K2 e) as (_ & _ & _ & K3 & _). now rewrite (K3 _ (Kc L)).
  - destruct K as [K _]. destruct K2 as [K2 _]. rewrite (hget_oob h2) by lia. cbn. rewrite hupd_oob by lia. now rewrite (Ko L).
Qed.

Lemma mbind_assoc_elements {B} fuel e (k : list nat -> hM B) h :
  mbind (elements fuel e) (fun l => match l with None => raise TypeError | Some l => k l end) h =
  mbind (let! l := elements fuel e in match l with Some l => ret l | None => raise TypeError end) k h.
Proof. unfold mbind. destruct (elements fuel e h) as [h1 [[l|]|ex]]; reflexivity. Qed.

Lemma repeat_ext {A} (m m' : hM A) : (forall h, m h = m' h) -> repeatable m -> repeatable m'.
Proof. intros E H h h' x Hx. rewrite <- E in Hx. destruct (H _ _ _ Hx) as [K R]. split; [assumption|]. intros h2 K2. rewrite <- E. now apply R. Qed.

Theorem repeat_raw inp fuel : forall e, repeatable (raw inp fuel e).
Proof.
  induction fuel as [|f IH]; intro e; [apply repeat_raise|].
  intros h h' x H.
  (* the parts of raw, for a fixed instruction *)
  assert (G : forall n big, n = hget h e -> big = S (length h) ->
    repeatable (let! c := match n_comments n with Some _ => let! v := comment e in ret (Some v) | None => ret None end in
      let key := lift (key_or (n_key n)) in
      match n_type n with
      | EMPTY_ELEMENT => let! k := key in ret (RawEmpty c k)
      | FIELD | MULTILINE_FIELD_BEGIN => let! k := key in let! v := value inp big e in ret (RawField c k v)
      | LIST_ITEM => let! v := value inp big e in ret (RawItem c v)
      | FIELDSET_ENTRY => let! k := key in let! v := value inp big e in ret (RawEntry c k v)
      | LIST => let! k := key in let! l := items big e in let! rs := mapM (raw inp f) l in ret (RawList c k rs)
      | FIELDSET => let! k := key in let! l := entries big e in let! rs := mapM (raw inp f) l in ret (RawFieldset c k rs)
      | SECTION => let! k := key in let! l := elements big e in
          match l with None => raise TypeError | Some l => let! rs := mapM (raw inp f) l in ret (RawSection c k rs) end
      | DOCUMENT => let! l := elements big e in
          match l with None => raise TypeError | Some l => let! rs := mapM (raw inp f) l in ret (RawDocument rs) end
      | _ => ret (RawOther c)
      end)).
  { intros n big _ _. apply repeat_bind.
    { destruct (n_comments n); [apply repeat_bind; [apply repeat_comment|intro; apply repeat_ret]|apply repeat_ret]. }
    intro c. cbv zeta.
    assert (RM : forall l, repeatable (mapM (raw inp f) l)) by (intro; now apply repeat_mapM).
    destruct (n_type n); repeat first
      [ apply repeat_ret | apply repeat_lift | apply repeat_value | apply repeat_items | apply repeat_entries | apply RM
      | eapply repeat_ext; [intro; symmetry; apply mbind_assoc_elements|apply repeat_bind; [apply (proj1 (repeat_elements big e))|intro]]
      | apply repeat_bind; [|intro] ]. }
  cbn [raw] in H. unfold mbind at 1, get in H. unfold mbind at 1, hnode in H.
  destruct (G (hget h e) (S (length h)) eq_refl eq_refl _ _ _ H) as [K R]. split; [exact K|].
  intros h2 K2. cbn [raw]. unfold mbind at 1, get. unfold mbind at 1, hnode.
  pose proof (more_trans _ _ _ K K2) as K3. destruct (more_get _ _ e K3) as (T & Ky & C & _).
  rewrite T, Ky, C. destruct K3 as [K3 _]. rewrite <- K3. exact (R h2 K2).
Qed.
