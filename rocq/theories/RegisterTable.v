(** The table of attributes after any number of registrations. *)
From Verif Require Import Base Types Reporter Errors Context Elements Register SpecRegister RegisterNames.

Section Values.
  Context {V : Type}.
  Notation initial := (@initial V).
  Notation table := (table V).

  Lemma in_set (t : table) c b m c' b' : in_class (setattr t c b m) c' b' = if pyclass_eqb c' c && text_eqb b' b then Some m else in_class t c' b'.
  Proof. reflexivity. Qed.
  Lemma in_set_same (t : table) c b m : in_class (setattr t c b m) c b = Some m.
  Proof. rewrite in_set, pyclass_eqb_refl, text_eqb_refl. reflexivity. Qed.
  Lemma in_set_other (t : table) c b m c' b' : ~ (c' = c /\ b' = b) -> in_class (setattr t c b m) c' b' = in_class t c' b'.
  Proof.
    intro H. rewrite in_set. destruct (pyclass_eqb c' c && text_eqb b' b) eqn:E; [|reflexivity]. exfalso. apply H.
    apply andb_prop in E. destruct E as [E1 E2]. split; [now apply pyclass_eqb_eq|now apply text_eqb_eq].
  Qed.

  (** missing elements keep the accessors for texts *)
  Definition stringy (t : table) : Prop :=
    forall a, in_class t (missing_owner a) (attr a (U"string")) = Some (Native (missing_owner a) (attr a (U"string"))).
  Lemma stringy_initial : stringy initial.
  Proof. intro a. destruct a as [|[]|[]|[]]; vm_compute; reflexivity. Qed.
  Lemma missing_first a : exists l, mro (missing_owner a) = missing_owner a :: l.
  Proof. destruct a; eexists; reflexivity. Qed.
  Lemma stringy_get t a : stringy t -> getattr t (missing_owner a) (attr a (U"string")) = Some (Native (missing_owner a) (attr a (U"string"))).
  Proof. intro H. unfold getattr. destruct (missing_first a) as (l & ->). cbn [lookup_in]. now rewrite H. Qed.
  Lemma accessor_dec (x y : accessor) : {x = y} + {x <> y}.
  Proof. decide equality; apply Bool.bool_dec. Qed.
  Lemma owners a b : owner a <> missing_owner b.
  Proof. destruct a, b; discriminate. Qed.

  Lemma loaders_spec n f l : forall t, stringy t -> let t' := fold_left (set_loader n f) l t in
    stringy t' /\
    (forall a, In a l -> in_class t' (owner a) (attr a n) = Some (Using a f)) /\
    (forall c b, (forall a, In a l -> ~ (c = owner a /\ b = attr a n)) -> in_class t' c b = in_class t c b).
  Proof.
    induction l as [|a l IH]; intros t HS; cbn [fold_left].
    - split; [assumption|]. split; [intros a []|reflexivity].
    - destruct (IH (set_loader n f t a)) as (S1 & S2 & S3).
      { intro b. unfold set_loader. rewrite in_set_other; [apply HS|]. intros [H _]. symmetry in H. now apply owners in H. }
      cbv zeta in *. split; [exact S1|]. split.
      + intros b Hb. destruct (in_dec accessor_dec b l) as [Hin|Hn]; [now apply S2|].
        destruct Hb as [->|Hb]; [|contradiction]. rewrite S3.
        * unfold set_loader. apply in_set_same.
        * intros c Hc [_ E]. apply attr_apart in E. destruct E as [-> _]. contradiction.
      + intros c b H. rewrite S3; [|intros x Hx; apply H; now right]. unfold set_loader. apply in_set_other. apply H. now left.
  Qed.
  Lemma missing_spec n l : forall t, stringy t -> exists t', foldM (set_missing n) l t = Ok t' /\
    stringy t' /\
    (forall a, In a l -> in_class t' (missing_owner a) (attr a n) = Some (Native (missing_owner a) (attr a (U"string")))) /\
    (forall c b, (forall a, In a l -> ~ (c = missing_owner a /\ b = attr a n)) -> in_class t' c b = in_class t c b).
  Proof.
    induction l as [|a l IH]; intros t HS; cbn [foldM].
    - exists t. split; [reflexivity|]. split; [assumption|]. split; [intros a []|reflexivity].
    - unfold set_missing at 1. rewrite (stringy_get t a HS). cbn [bind].
      set (t1 := setattr t (missing_owner a) (attr a n) _).
      destruct (IH t1) as (t' & E & S1 & S2 & S3).
      { intro b. unfold t1. rewrite in_set. destruct (pyclass_eqb (missing_owner b) (missing_owner a) && text_eqb (attr b (U"string")) (attr a n)) eqn:Q; [|apply HS].
        apply andb_prop in Q. destruct Q as [_ Q]. apply text_eqb_eq in Q. apply attr_apart in Q. now destruct Q as [-> _]. }
      exists t'. split; [exact E|]. split; [exact S1|]. split.
      + intros b Hb. destruct (in_dec accessor_dec b l) as [Hin|Hn]; [now apply S2|].
        destruct Hb as [->|Hb]; [|contradiction]. rewrite S3.
        * unfold t1. apply in_set_same.
        * intros c Hc [_ Q]. apply attr_apart in Q. destruct Q as [-> _]. contradiction.
      + intros c b H. rewrite S3; [|intros x Hx; apply H; now right]. unfold t1. apply in_set_other. apply H. now left.
  Qed.

  (** one definition *)
  Lemma one_spec t n f : stringy t -> exists t', register_one t (n, f) = Ok t' /\ stringy t' /\
    (forall a, in_class t' (owner a) (attr a n) = Some (Using a f)) /\
    (forall a, in_class t' (missing_owner a) (attr a n) = Some (Native (missing_owner a) (attr a (U"string")))) /\
    (forall c b, (forall a, b = attr a n -> c <> owner a /\ c <> missing_owner a) -> in_class t' c b = in_class t c b).
  Proof.
    intro HS. unfold register_one. cbn [fst snd]. destruct (loaders_spec n f accessors t HS) as (L1 & L2 & L3). cbv zeta in *.
    destruct (missing_spec n accessors _ L1) as (t' & E & M1 & M2 & M3). exists t'. split; [exact E|]. split; [exact M1|].
    split; [|split].
    - intro a. rewrite M3; [apply L2, all_accessors|]. intros b _ [H _]. now apply owners in H.
    - intro a. apply M2, all_accessors.
    - intros c b H. rewrite M3, L3; [reflexivity|..]; intros a _ [H1 H2]; destruct (H a H2); auto.
  Qed.

  (** definitions in order *)
  Lemma many_spec l : forall t, stringy t -> exists t', foldM register_one l t = Ok t' /\ stringy t' /\
    (forall n f a, defined n f l -> in_class t' (owner a) (attr a n) = Some (Using a f)) /\
    (forall n a, In n (map fst l) -> in_class t' (missing_owner a) (attr a n) = Some (Native (missing_owner a) (attr a (U"string")))) /\
    (forall c b, (forall a n, In n (map fst l) -> b = attr a n -> c <> owner a /\ c <> missing_owner a) -> in_class t' c b = in_class t c b).
  Proof.
    induction l as [|(m, g) l IH]; intros t HS; cbn [foldM].
    - exists t. split; [reflexivity|]. split; [assumption|]. split; [|split; [intros n a []|reflexivity]].
      intros n f a (before & after & E & _). now destruct before.
    - destruct (one_spec t m g HS) as (t1 & E1 & S1 & O1 & O2 & O3). rewrite E1. cbn [bind].
      destruct (IH t1 S1) as (t' & E & S2 & I1 & I2 & I3). exists t'. split; [exact E|]. split; [exact S2|]. split; [|split].
      + intros n f a (before & after & El & Hn). destruct before as [|p before]; cbn [app] in El.
        * injection El as -> -> ->. rewrite I3; [apply O1|]. intros b k Hk Hb. apply attr_apart in Hb. destruct Hb as [_ ->]. contradiction.
        * injection El as _ ->. apply I1. exists before, after. now split.
      + intros n a Hn. cbn [map fst] in Hn. destruct (in_dec (list_eq_dec N.eq_dec) n (map fst l)) as [Hin|Hout]; [now apply I2|].
        destruct Hn as [->|Hn]; [|contradiction]. rewrite I3; [apply O2|].
        intros b k Hk Hb. apply attr_apart in Hb. destruct Hb as [_ ->]. contradiction.
      + intros c b H. rewrite I3, O3; [reflexivity|..].
        * intros a Hb. apply (H a m); [now left|assumption].
        * intros a n Hn Hb. apply (H a n); [now right|assumption].
  Qed.

  (** the calls of [register] are the definitions in order *)
  Lemma foldM_app {A S} (f : S -> A -> res S) l1 l2 : forall s, foldM f (l1 ++ l2) s = do s' <- foldM f l1 s; foldM f l2 s'.
  Proof. induction l1 as [|x l1 IH]; intro s; cbn [app foldM]; [reflexivity|]. destruct (f s x); cbn [bind]; [apply IH|reflexivity]. Qed.
  Lemma defs_flat (defs : list (definition V)) : forall t,
    foldM (fun t d => match d with Callable n f => register_one t (n, f) | Dict l => foldM register_one l t end) defs t =
    foldM register_one (flat_map given_by defs) t.
  Proof.
    induction defs as [|d defs IH]; intro t; [reflexivity|]. cbn [foldM flat_map]. rewrite foldM_app.
    destruct d as [n f|l]; cbn [given_by foldM].
    - destruct (register_one t (n, f)); cbn [bind]; [apply IH|reflexivity].
    - destruct (foldM register_one l t); cbn [bind]; [apply IH|reflexivity].
  Qed.
  Lemma calls_flat calls : forall t : table, foldM (fun t d => register (fst d) (snd d) t) calls t = foldM register_one (given calls) t.
  Proof.
    induction calls as [|d calls IH]; intro t; [reflexivity|]. cbn [foldM given flat_map]. fold (given calls). rewrite !foldM_app.
    unfold register. rewrite defs_flat. destruct (foldM register_one (flat_map given_by (fst d)) t) as [t1|e]; cbn [bind]; [|reflexivity].
    destruct (foldM register_one (snd d) t1) as [t2|e]; cbn [bind]; [apply IH|reflexivity].
  Qed.

  Lemma registers_spec calls : exists t, registers calls = Ok t /\
    (forall n f a, defined n f (given calls) -> in_class t (owner a) (attr a n) = Some (Using a f)) /\
    (forall n a, In n (map fst (given calls)) -> in_class t (missing_owner a) (attr a n) = Some (Native (missing_owner a) (attr a (U"string")))) /\
    (forall c b, (forall a n, In n (map fst (given calls)) -> b = attr a n -> c <> owner a /\ c <> missing_owner a) -> in_class t c b = in_class initial c b).
  Proof.
    unfold registers. rewrite calls_flat. destruct (many_spec (given calls) initial stringy_initial) as (t & E & _ & H1 & H2 & H3). now exists t.
  Qed.

  Lemma lookup_same (t1 t2 : table) l b : (forall c, In c l -> in_class t1 c b = in_class t2 c b) -> lookup_in t1 l b = lookup_in t2 l b.
  Proof.
    induction l as [|c l IH]; intro H; [reflexivity|]. cbn [lookup_in]. rewrite (H c (or_introl eq_refl)).
    destruct (in_class t2 c b); [reflexivity|]. apply IH. intros x Hx. apply H. now right.
  Qed.

  Section Registered.
    Context calls (t : table) (E : registers calls = Ok t).
    Notation l := (given calls).
    Lemma table_own n f a : defined n f l -> in_class t (owner a) (attr a n) = Some (Using a f).
    Proof. destruct (registers_spec calls) as (t' & E' & H & _). rewrite E in E'. injection E' as <-. apply H. Qed.
    Lemma table_missing n a : In n (map fst l) -> in_class t (missing_owner a) (attr a n) = Some (Native (missing_owner a) (attr a (U"string"))).
    Proof. destruct (registers_spec calls) as (t' & E' & _ & H & _). rewrite E in E'. injection E' as <-. apply H. Qed.
    Lemma table_other c b : (forall a n, In n (map fst l) -> b = attr a n -> c <> owner a /\ c <> missing_owner a) -> in_class t c b = in_class initial c b.
    Proof. destruct (registers_spec calls) as (t' & E' & _ & _ & H). rewrite E in E'. injection E' as <-. apply H. Qed.
    Lemma table_class c a n : c <> owner a -> c <> missing_owner a -> in_class t c (attr a n) = in_class initial c (attr a n).
    Proof. intros H1 H2. apply table_other. intros b m _ Hb. apply attr_apart in Hb. now destruct Hb as [<- _]. Qed.
    Lemma table_away b : (forall a n, In n (map fst l) -> b <> attr a n) -> forall c, getattr t c b = getattr initial c b.
    Proof. intros H c. unfold getattr. apply lookup_same. intros x _. apply table_other. intros a n Hn Hb. exfalso. exact (H a n Hn Hb). Qed.

    (** a class body earlier in the order of lookup does not have the name *)
    Lemma before_none c a n : c <> owner a -> c <> missing_owner a -> (n = U"string" -> c = PField -> forall q, a <> AValue q) ->
      (n = [] -> a = AKey -> c <> PElementBase) -> in_class t c (attr a n) = None.
    Proof.
      intros H1 H2 H3 H4. rewrite table_class by assumption. destruct (in_class initial c (attr a n)) eqn:Q; [|reflexivity]. exfalso.
      destruct (initial_attr (V := V) c a n) as [[K1 [K2|[K2|[K2 (q & K3)]]]]|(K1 & K2 & K3)]; [rewrite Q; discriminate|now auto..| |].
      - exact (H3 K1 K2 q K3).
      - exact (H4 K1 K3 K2).
    Qed.

    Lemma get_own n f a cl : defined n f l -> has a cl -> (n = U"string" -> cl = CField -> forall q, a <> AValue q) ->
      getattr t (obj_class cl) (attr a n) = Some (Using a f).
    Proof.
      intros HD HH HS. pose proof (table_own n f a HD) as HO. unfold getattr.
      assert (B : forall c, c <> owner a -> c <> missing_owner a -> (c = PField -> cl = CField) -> c <> PElementBase -> in_class t c (attr a n) = None).
      { intros c B1 B2 B3 B4. apply before_none; try assumption; [|intros; assumption]. intros Hn Hc. apply HS; auto. }
      destruct a as [|q|q|q]; cbn [has owner] in *; [destruct cl|destruct cl|destruct HH as [->|[->| ->]]|subst cl]; cbn [obj_class mro lookup_in];
        repeat first [rewrite HO; reflexivity | rewrite B by (discriminate || (intro; discriminate) || reflexivity)].
    Qed.
    Lemma get_missing n a k : In n (map fst l) -> missing_has a k ->
      getattr t (missing_class k) (attr a n) = Some (Native (missing_owner a) (attr a (U"string"))).
    Proof.
      intros HD HH. pose proof (table_missing n a HD) as HO. unfold getattr.
      assert (B : forall c, c <> owner a -> c <> missing_owner a -> c <> PField -> c <> PElementBase -> in_class t c (attr a n) = None).
      { intros c B1 B2 B3 B4. apply before_none; try assumption; [|intros; assumption]. intros _ Hc. contradiction. }
      destruct a as [|q|q|q]; cbn [missing_has missing_owner] in *; [destruct k|destruct k|destruct HH as [->| ->]|subst k]; cbn [missing_class mro lookup_in];
        repeat first [rewrite HO; reflexivity | rewrite B by (discriminate || reflexivity)].
    Qed.
    (** elements without the accessor do not get it *)
    Lemma get_none n a cl : ~ has a cl -> n <> U"string" -> n <> [] -> getattr t (obj_class cl) (attr a n) = None.
    Proof.
      intros HH Hn He. unfold getattr.
      assert (B : forall c, c <> owner a -> c <> missing_owner a -> in_class t c (attr a n) = None).
      { intros c B1 B2. apply before_none; try assumption; intros; contradiction. }
      destruct a as [|q|q|q]; cbn [has] in HH; [now destruct HH|now destruct HH|..];
        destruct cl; try (exfalso; tauto); cbn [obj_class mro lookup_in]; rewrite ?B by discriminate; reflexivity.
    Qed.
    Lemma get_missing_none n a k : ~ missing_has a k -> n <> U"string" -> n <> [] -> getattr t (missing_class k) (attr a n) = None.
    Proof.
      intros HH Hn He. unfold getattr.
      assert (B : forall c, c <> owner a -> c <> missing_owner a -> in_class t c (attr a n) = None).
      { intros c B1 B2. apply before_none; try assumption; intros; contradiction. }
      destruct a as [|q|q|q]; cbn [missing_has] in HH; [now destruct HH|now destruct HH|..];
        destruct k; try (exfalso; tauto); cbn [missing_class mro lookup_in]; rewrite ?B by discriminate; reflexivity.
    Qed.

    (** the accessors with a loader stay *)
    Lemma generic_away a b n : generic a <> attr b n.
    Proof.
      intro H. pose proof (unspell_attr b n) as Q. rewrite <- H in Q. destruct a as [|[]|[]|[]], b as [|[]|[]|[]]; vm_compute in Q; discriminate.
    Qed.
    Lemma get_generic a cl : has a cl -> exists c, getattr t (obj_class cl) (generic a) = Some (Native c (generic a)).
    Proof.
      intro HH. rewrite (table_away (generic a)); [|intros b n _; apply generic_away].
      destruct a as [|[]|[]|[]]; cbn [has] in HH; [destruct cl|destruct cl|destruct cl|destruct HH as [->|[->| ->]]|destruct HH as [->|[->| ->]]|subst cl|subst cl]; vm_compute; eexists; reflexivity.
    Qed.
    Lemma get_own_key cl : ~ In [] (map fst l) -> getattr t (obj_class cl) (U"_key") = Some (Native PElementBase (U"_key")).
    Proof.
      intro Hn. rewrite (table_away (U"_key")).
      - destruct cl; vm_compute; reflexivity.
      - intros a n H Hb. pose proof (unspell_attr a n) as Q. rewrite <- Hb in Q. destruct a as [|[]|[]|[]]; vm_compute in Q; try discriminate. injection Q as <-. contradiction.
    Qed.
  End Registered.
End Values.
