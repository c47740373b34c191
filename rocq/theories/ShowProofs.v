(** ShowProofs: printed objects and parents. *)
From Verif Require Import Base Types Messages Resolver Reporter Errors Context Elements SpecTree SpecResolve SpecRead SpecApi SpecQuery SpecLoad SpecNumber SpecShow SpecTouch NumberProofs
  Reads ErrorCaches ApiDoc ApiInv ApiState ApiOps Session SessionInv SessionRun Frames QueryProofs LoadProofs RepeatProofs TouchProofs TouchCalls PropParseProofs PropReadProofs PropQueryProofs PropRawProofs ParseOutcome.

Lemma reach_later c s s' : reach c s -> goes_on s s' -> reach c s'.
Proof.
  intros (s0 & B & G) H. exists s0. split; [exact B|]. clear B. induction G as [s|s x s1 H1 H2 G IH]; [exact H|]. apply (go_call s x); auto.
Qed.

(** * Missing elements *)
Lemma missing_shown name k key p : missing_name k = U "Missing" ++ name -> shows_missing name key (print_missing (Missing k key p)).
Proof. intro E. cbn [print_missing]. destruct key as [[|ch t]|]; rewrite E; [exact (sm_empty name)| |exact (sm_any name)]. apply (sm_keyed name (ch :: t)). discriminate. Qed.
Lemma asked_name what : missing_name (match what with None => MKElement | Some k => kind_missing k end) = U "Missing" ++ asked what.
Proof. destruct what as [[]|]; reflexivity. Qed.
Lemma fail_not {A} f (a : A) (s : st) : snd (fail f s) = Ok a -> False.
Proof. unfold fail, mbind, the_ctx. cbn. destruct (f (s_ctx s)); discriminate. Qed.
Lemma query_missing what o key req s m : snd (query what o key req s) = Ok (FMissing m) -> shows_missing (asked what) key (print_missing m).
Proof.
  unfold query. unfold mbind at 1. destruct (touch_obj o s) as [s1 [[]|x]]; [|discriminate]. unfold mbind at 1. destruct (by_key section_children o key s1) as [s2 [els|x]]; [|discriminate].
  unfold mbind at 1, the_obj. destruct els as [|e [|e' els]].
  - destruct (_ || _); [intro H; destruct (fail_not _ _ _ H)|]. destruct req; [discriminate|]. cbn [snd ret]. intros [= <-]. apply missing_shown, asked_name.
  - destruct what as [k|]; [|discriminate]. unfold mbind at 1. unfold mbind at 1, inode. destruct (accepts k _); [|intro H; destruct (fail_not _ _ _ H)].
    unfold mbind. destruct (to_kind k e s2) as [s3 [y|x]]; discriminate.
  - unfold mbind at 1, get. intro H. destruct (fail_not _ _ _ H).
Qed.
Lemma entry_missing o key req s m : snd (entry_query o key req s) = Ok (FMissing m) -> shows_missing (U "FieldsetEntry") key (print_missing m).
Proof.
  unfold entry_query. unfold mbind at 1. destruct (touch_obj o s) as [s1 [[]|x]]; [|discriminate]. unfold mbind at 1. destruct (by_key fieldset_children o key s1) as [s2 [els|x]]; [|discriminate].
  unfold mbind at 1, the_obj. destruct els as [|e [|e' els]]; [|discriminate|unfold mbind at 1, get; intro H; destruct (fail_not _ _ _ H)].
  destruct (_ || _); [intro H; destruct (fail_not _ _ _ H)|]. destruct req; [discriminate|]. cbn [snd ret]. intros [= <-]. apply missing_shown. reflexivity.
Qed.
Lemma error_not {A} m (a : A) : forall s, snd (missing_error m s) = Ok a -> False.
Proof.
  refine ((fix F (m : missing) : forall s, snd (missing_error m s) = Ok a -> False := match m with Missing k key p => _ end) m). intros s. destruct p as [o|m']; [|exact (F m' s)].
  cbn [missing_error]. unfold mbind at 1, the_obj. destruct (o_class _); try discriminate. apply fail_not.
Qed.
Lemma below_missing what m0 key req s m : snd (missing_query what m0 key req s) = Ok (FMissing m) -> shows_missing (asked what) key (print_missing m).
Proof.
  unfold missing_query. destruct req as [[|]|]; [intro H; destruct (error_not _ _ _ H)|discriminate|]. cbn [snd ret]. intros [= <-]. apply missing_shown, asked_name.
Qed.
Lemma entry_below_missing m0 key req s m : snd (missing_entry m0 key req s) = Ok (FMissing m) -> shows_missing (U "FieldsetEntry") key (print_missing m).
Proof.
  unfold missing_entry. destruct req as [[|]|]; [intro H; destruct (error_not _ _ _ H)|discriminate|]. cbn [snd ret]. intros [= <-]. apply missing_shown. reflexivity.
Qed.
Lemma missing_read k key what o req s m : snd (query what o key req s) = Ok (FMissing m) -> shows_missing (asked (Some k)) key (print_missing (missing_to_kind k m)).
Proof.
  unfold query. unfold mbind at 1. destruct (touch_obj o s) as [s1 [[]|x]]; [|discriminate]. unfold mbind at 1. destruct (by_key section_children o key s1) as [s2 [els|x]]; [|discriminate].
  unfold mbind at 1, the_obj. destruct els as [|e [|e' els]].
  - destruct (_ || _); [intro H; destruct (fail_not _ _ _ H)|]. destruct req; [discriminate|]. cbn [snd ret]. intros [= <-]. apply missing_shown, (asked_name (Some k)).
  - destruct what as [k'|]; [|discriminate]. unfold mbind at 1. unfold mbind at 1, inode. destruct (accepts k' _); [|intro H; destruct (fail_not _ _ _ H)].
    unfold mbind. destruct (to_kind k' e s2) as [s3 [y|x]]; discriminate.
  - unfold mbind at 1, get. intro H. destruct (fail_not _ _ _ H).
Qed.

Lemma all_missing s m what key required :
  (forall o, snd (query what o key required s) = Ok (FMissing m) -> shows_missing (asked what) key (print_missing m)) /\
  (forall o, snd (entry_query o key required s) = Ok (FMissing m) -> shows_missing (U "FieldsetEntry") key (print_missing m)) /\
  (forall m0, snd (missing_query what m0 key required s) = Ok (FMissing m) -> shows_missing (asked what) key (print_missing m)) /\
  (forall m0, snd (missing_entry m0 key required s) = Ok (FMissing m) -> shows_missing (U "FieldsetEntry") key (print_missing m)) /\
  (forall o k, snd (query what o key required s) = Ok (FMissing m) -> shows_missing (asked (Some k)) key (print_missing (missing_to_kind k m))).
Proof.
  split; [intro o; apply query_missing|]. split; [intro o; apply entry_missing|]. split; [intro m0; apply below_missing|]. split; [intro m0; apply entry_below_missing|].
  intros o k. apply missing_read.
Qed.

Section Parsed.
  Context {inp : text} {loc : locale} {rk : reporter_kind} {src : option text} {c : ctx} (HP : parse_context inp loc rk src = Ok c).
  Let HD : Doc (c_heap c) := doc_of_parse inp loc rk src c HP.
  Let HR : forall s, reach c s -> Inv c s := inv_reach c HD.
  Let r := c_heap c.

  Lemma counted children cl o e s L : children_spec c children cl -> Inv c s -> names s o cl e -> ends r e ->
    (forall l, kid_list c cl e l -> l = L) -> exists s' ids, children o s = (s', Ok ids) /\ length ids = length L.
  Proof.
    intros Hch HI (Ho & Hc & He) HE HL. destruct (Hch o s HI (conj Ho Hc)) as (s' & v & ids & E & HI' & HX & HM & [->|(_ & Hn & _)]).
    2:{ rewrite He in Hn. contradiction. }
    exists s', ids. split; [exact E|]. pose proof (valid_ext _ _ _ _ HX (conj Ho Hc)) as [V1 V2].
    pose proof (oo_kids _ _ _ _ (iv_obj _ _ HI' o V1) ids (made_kids _ _ _ _ _ HM)) as HK. pose proof (xe_instr _ _ (ex_obj _ _ HX o Ho)) as Ei.
    rewrite <- (HL (map (fun y => o_instr (oget s' y)) ids)); [now rewrite map_length|].
    rewrite <- V2, <- He, <- Ei. apply (ki_list _ _ _ _ _ HK). fold r. now rewrite Ei, He.
  Qed.
  Lemma print_value_is o cl e s v : ends r e -> Inv c s -> names s o cl e -> value_text inp r e v ->
    exists s' t, print_value o s = (s', Ok t) /\ value_shown v t.
  Proof.
    intros Hends HI (Ho & Hc & He) Hv. destruct (input_is HP) as [Einp _]. rewrite <- Einp in Hv. apply (value_text_at c) in Hv.
    unfold print_value. unfold mbind at 1, the_obj. unfold mbind at 1, the_ctx. unfold mbind at 1, hfuel. unfold mbind at 1. rewrite He.
    rewrite (ctx_input c _ HI). unfold on_heap in *. pose proof (co_heap _ _ _ (iv_ctx _ _ HI)) as HC.
    destruct (ends_path r e Hends) as (p & Hp).
    destruct (value_run (c_input c) r e p Hp [] (S (length (c_heap (s_ctx s)))) _ HC) as (w & h' & E & Hw & _).
    { rewrite (ca_len _ _ _ _ HC). exact (path_length r e p Hp). }
    rewrite E. rewrite (value_at_fun (c_input c) r e w v Hw Hv). eexists. eexists. split; [reflexivity|].
    destruct v as [[|ch t]|]; [constructor| |constructor]. destruct (Nat.ltb_spec 14 (length (ch :: t))) as [H|H].
    - rewrite <- (firstn_skipn 11 (ch :: t)) at 1. constructor; [rewrite firstn_length; lia|rewrite skipn_length; lia].
    - constructor; [discriminate|exact H].
  Qed.

  Lemma class_of s o cl e : Inv c s -> names s o cl e -> class_fits cl (n_type (hget r e)) /\ e < length r.
  Proof.
    intros HI (Ho & Hc & He). pose proof (iv_obj _ _ HI o Ho) as K. pose proof (oo_class _ _ _ _ K) as G. rewrite Hc, He in G. split; [exact G|]. rewrite <- He. apply (oo_instr _ _ _ _ K).
  Qed.
  Lemma keyed_class s o cl e : Inv c s -> names s o cl e -> (cl <> CElement /\ cl <> CItem /\ n_type (hget r e) <> DOCUMENT) -> exists k, n_key (hget r e) = Some k.
  Proof.
    intros HI HN (N1 & N2 & N3). destruct (class_of s o cl e HI HN) as [G L]. destruct (n_key (hget r e)) as [k|] eqn:E; [now exists k|]. exfalso. apply (doc_key r HD e); [|intro Et|exact E].
    - split; [|exact L]. destruct e; [|lia]. destruct (doc_root r HD) as (_ & Er & _). contradiction.
    - rewrite Et in G. destruct cl; cbn in G; try discriminate; try tauto. destruct G; discriminate.
  Qed.
  Lemma class_ends s o cl e : Inv c s -> names s o cl e -> (cl = CSection -> ends r e) -> cl <> CSectionElement -> cl <> CElement -> ends r e.
  Proof.
    intros HI HN HE N1 N2. destruct (class_of s o cl e HI HN) as [G _]. destruct cl; try contradiction; [now apply HE|..]; apply (doc_ends r HD); intro Et; rewrite Et in G; discriminate G.
  Qed.
  Lemma shows_any s o cl e : reach c s -> names s o cl e -> (cl = CSection -> ends r e) -> (cl = CElement -> n_key (hget r e) <> None) ->
    exists t, snd (print_of o s) = Ok t /\ shows inp r e cl t.
  Proof.
    intros Hs HN HE0 HK. pose proof (HR s Hs) as HI. pose proof (class_ends s o cl e HI HN HE0) as HE1.
    clear HE0. pose proof (co_heap _ _ _ (iv_ctx _ _ HI)) as HC. pose proof HN as (Ho & Hc & He).
    unfold print_of. unfold mbind at 1, the_obj. unfold mbind at 1, inode. rewrite Hc, He. rewrite (ca_type _ _ _ e HC), (ca_key _ _ _ e HC). fold r.
    assert (KEY : cl <> CItem -> n_type (hget r e) <> DOCUMENT \/ cl = CElement -> exists k, n_key (hget r e) = Some k).
    { intros N1 N2. destruct N2 as [N2| ->]; [|destruct (n_key (hget r e)) as [k|]; [now exists k|destruct (HK eq_refl eq_refl)]].
      assert (cl = CElement \/ cl <> CElement) as [->|N3] by (destruct cl; auto; right; discriminate); [destruct (n_key (hget r e)) as [k|]; [now exists k|destruct (HK eq_refl eq_refl)]|].
      apply (keyed_class s o cl e HI HN). auto. }
    destruct (class_of s o cl e HI HN) as [FIT _].
    assert (GROUP : ends r e -> forall children (f : text -> text), children_spec c children cl -> (exists L, kid_list c cl e L) -> (forall L l, kid_list c cl e L -> kid_list c cl e l -> l = L) ->
      exists d L, snd ((let! l := children o in ret (f (dec (length l)))) s) = Ok (f d) /\ kid_list c cl e L /\ decimal (length L) d).
    { intros HE children f Hch (L & HL) HU. destruct (counted children cl o e s L Hch HI HN HE) as (s' & ids & E & Hlen); [intros l Hl; exact (HU L l HL Hl)|].
      exists (dec (length L)), L. split; [|split; [exact HL|apply dec_is]]. unfold mbind. rewrite E. cbn [snd ret]. now rewrite Hlen. }
    assert (VAL : ends r e -> forall f : text -> text, exists v t, snd ((let! v := print_value o in ret (f v)) s) = Ok (f t) /\ value_text inp r e v /\ value_shown v t).
    { intros HE f. destruct (value_text_total c e HE) as (v & Hv). destruct (input_is HP) as [Ei _]. rewrite Ei in Hv. destruct (print_value_is o cl e s v HE HI HN Hv) as (s' & t & E & Ht).
      exists v, t. split; [|split; assumption]. unfold mbind. now rewrite E. }
    destruct cl; cbn [class_fits] in FIT.
    - pose proof (HE1 ltac:(discriminate) ltac:(discriminate)) as HE. assert (TOT : exists L, kid_list c CSection e L) by (apply (element_list_total _ HD); exact HE).
      assert (FUN : forall L l, kid_list c CSection e L -> kid_list c CSection e l -> l = L) by (intros L l H1 H2; exact (element_list_fun r HD e l H2 L H1)).
      destruct (itype_eqb (n_type (hget r e)) DOCUMENT) eqn:Et.
      + apply itype_eqb_eq in Et. destruct (GROUP HE section_children (fun d => U "<class Section document elements=" ++ d ++ U ">") (section_spec c HD) TOT FUN) as (d & L & E & HL & Hd).
        exists (U "<class Section document elements=" ++ d ++ U ">"). split; [exact E|now apply (sh_document inp r e L d)].
      + assert (NT : n_type (hget r e) <> DOCUMENT) by (intro F; rewrite F in Et; discriminate Et). destruct KEY as (k & Ek); [discriminate|auto|]. rewrite Ek. unfold mbind at 1, lift, key_or.
        destruct (GROUP HE section_children (fun d => U "<class Section key=""" ++ k ++ U """ elements=" ++ d ++ U ">") (section_spec c HD) TOT FUN) as (d & L & E & HL & Hd).
        exists (U "<class Section key=""" ++ k ++ U """ elements=" ++ d ++ U ">"). split; [exact E|now apply (sh_section inp r e k L d)].
    - destruct KEY as (k & Ek); [discriminate|left; tauto|]. rewrite Ek. unfold mbind at 1, lift, key_or. eexists. split; [reflexivity|now constructor].
    - destruct KEY as (k & Ek); [discriminate|auto|]. rewrite Ek. unfold mbind at 1, lift, key_or. eexists. split; [reflexivity|now constructor].
    - pose proof (HE1 ltac:(discriminate) ltac:(discriminate)) as HE. destruct KEY as (k & Ek); [discriminate|left; intro F; rewrite F in FIT; discriminate FIT|]. rewrite Ek. unfold mbind at 1, lift, key_or.
      destruct (GROUP HE fieldset_children (fun d => U "<class Fieldset key=" ++ k ++ U " entries=" ++ d ++ U ">") (fieldset_spec c HD)) as (d & L & E & HL & Hd).
      { apply (entry_list_total _ HD); exact HE. } { intros L l H1 H2. exact (entry_list_fun r HD e l H2 L H1). }
      eexists. split; [exact E|now apply (sh_fieldset inp r e k L d)].
    - pose proof (HE1 ltac:(discriminate) ltac:(discriminate)) as HE. destruct KEY as (k & Ek); [discriminate|left; intro F; rewrite F in FIT; discriminate FIT|]. rewrite Ek. unfold mbind at 1, lift, key_or.
      destruct (GROUP HE list_children (fun d => U "<class List key=" ++ k ++ U " items=" ++ d ++ U ">") (list_spec c HD)) as (d & L & E & HL & Hd).
      { apply item_list_total; exact HE. } { intros L l H1 H2. exact (item_list_fun r e l H2 L H1). }
      eexists. split; [exact E|now apply (sh_list inp r e k L d)].
    - pose proof (HE1 ltac:(discriminate) ltac:(discriminate)) as HE. destruct KEY as (k & Ek); [discriminate|left; intro F; rewrite F in FIT; discriminate FIT|]. rewrite Ek. unfold mbind at 1, lift, key_or.
      destruct (VAL HE (fun v => U "<class Field key=" ++ k ++ U " value=" ++ v ++ U ">")) as (v & t & E & Hv & Ht). eexists. split; [exact E|now apply (sh_field inp r e k v)].
    - pose proof (HE1 ltac:(discriminate) ltac:(discriminate)) as HE. destruct KEY as (k & Ek); [discriminate|left; intro F; rewrite F in FIT; discriminate FIT|]. rewrite Ek. unfold mbind at 1, lift, key_or. eexists. split; [reflexivity|now constructor].
    - pose proof (HE1 ltac:(discriminate) ltac:(discriminate)) as HE. destruct KEY as (k & Ek); [discriminate|left; intro F; rewrite F in FIT; discriminate FIT|]. rewrite Ek. unfold mbind at 1, lift, key_or.
      destruct (VAL HE (fun v => U "<class FieldsetEntry key=" ++ k ++ U " value=" ++ v ++ U ">")) as (v & t & E & Hv & Ht). eexists. split; [exact E|now apply (sh_entry inp r e k v)].
    - pose proof (HE1 ltac:(discriminate) ltac:(discriminate)) as HE. destruct (VAL HE (fun v => U "<class ListItem value=" ++ v ++ U ">")) as (v & t & E & Hv & Ht). eexists. split; [exact E|now apply (sh_item inp r e v)].
  Qed.
  Lemma shown_is v t : value_shown v t -> t = match v with None | Some [] => U "None" | Some x => if Nat.ltb 14 (length x) then firstn 11 x ++ U "..." else x end.
  Proof.
    intros [| |x N1 N2|st re N1 N2]; [reflexivity|reflexivity| |].
    - destruct x as [|ch x]; [contradiction|]. destruct (Nat.ltb_spec 14 (length (ch :: x))); [lia|reflexivity].
    - assert (L : 14 < length (st ++ re)) by (rewrite app_length; lia). destruct (st ++ re) as [|ch x] eqn:E; [cbn in L; lia|]. apply Nat.ltb_lt in L. rewrite L, <- E.
      rewrite firstn_app, N1, Nat.sub_diag, firstn_O, app_nil_r, <- N1, firstn_all. reflexivity.
  Qed.
  Lemma shown_one v t u : value_shown v t -> value_shown v u -> t = u.
  Proof. intros H G. now rewrite (shown_is v t H), (shown_is v u G). Qed.
  Lemma shows_one e cl t u : shows inp r e cl t -> shows inp r e cl u -> t = u.
  Proof.
    assert (VO : forall e v w, value_text inp r e v -> value_text inp r e w -> v = w) by (intros; eapply (value_text_one HP); eassumption).
    intros H G. destruct H as [l d H1 H2 H3|k l d H0 H1 H2 H3|k l d H1 H2 H3|k l d H1 H2 H3|k v x H1 H2 H3|k v x H1 H2 H3|v x H2 H3|k H1|k H1|k H1]; inversion G; subst; try contradiction;
      repeat match goal with
      | A : n_key ?x = Some _, B : n_key ?x = Some _ |- _ => rewrite A in B; injection B as B; subst
      | A : element_list r e ?l, B : element_list r e ?m |- _ => lazymatch l with m => fail | _ => pose proof (element_list_fun r HD e l A m B); subst; clear B end
      | A : entry_list r e ?l, B : entry_list r e ?m |- _ => lazymatch l with m => fail | _ => pose proof (entry_list_fun r HD e l A m B); subst; clear B end
      | A : item_list r e ?l, B : item_list r e ?m |- _ => lazymatch l with m => fail | _ => pose proof (item_list_fun r e l A m B); subst; clear B end
      | A : value_text inp r e ?l, B : value_text inp r e ?m |- _ => lazymatch l with m => fail | _ => pose proof (VO e l m A B); subst; clear B end
      | A : decimal ?n ?l, B : decimal ?n ?m |- _ => lazymatch l with m => fail | _ => pose proof (decimal_one n l m A B); subst; clear B end
      | A : value_shown ?n ?l, B : value_shown ?n ?m |- _ => lazymatch l with m => fail | _ => pose proof (shown_one n l m A B); subst; clear B end
      end; reflexivity.
  Qed.
  (** what has no key *)
  Lemma shows_nothing s o e : reach c s -> names s o CElement e -> n_key (hget r e) = None -> print_of o s = (s, Raise KeyError).
  Proof.
    intros Hs (Ho & Hc & He) HK. pose proof (co_heap _ _ _ (iv_ctx _ _ (HR s Hs))) as HC.
    unfold print_of. unfold mbind at 1, the_obj. unfold mbind at 1, inode. rewrite Hc, He, (ca_key _ _ _ e HC). fold r. now rewrite HK.
  Qed.
  Lemma shows_same s s' o cl e : reach c s -> goes_on s s' -> names s o cl e -> (cl = CSection -> ends r e) -> snd (print_of o s') = snd (print_of o s).
  Proof.
    intros Hs HG HN HE. pose proof (names_on c HD s s' o cl e HG (HR s Hs) HN) as HN'. assert (Hs' : reach c s') by now apply (reach_later c s).
    destruct (n_key (hget r e)) as [k|] eqn:Ek.
    - destruct (shows_any s o cl e Hs HN HE) as (t & E & H); [congruence|]. destruct (shows_any s' o cl e Hs' HN' HE) as (u & E' & H'); [congruence|].
      rewrite E, E'. f_equal. exact (shows_one e cl u t H' H).
    - assert (cl = CElement \/ cl <> CElement) as [->|N3] by (destruct cl; auto; right; discriminate).
      + now rewrite (shows_nothing s o e Hs HN Ek), (shows_nothing s' o e Hs' HN' Ek).
      + destruct (shows_any s o cl e Hs HN HE) as (t & E & H); [congruence|]. destruct (shows_any s' o cl e Hs' HN' HE) as (u & E' & H'); [congruence|].
        rewrite E, E'. f_equal. exact (shows_one e cl u t H' H).
  Qed.

  (** the first time that the elements of a section with an endless chain of links are needed *)
  Lemma shows_never s o e : reach c s -> names s o CSection e -> ~ ends r e -> o_children (oget s o) = None -> snd (print_of o s) = Raise Fuel.
  Proof.
    intros Hs HN HE Hn. pose proof (HR s Hs) as HI. pose proof (co_heap _ _ _ (iv_ctx _ _ HI)) as HC. pose proof HN as (Ho & Hc & He).
    assert (NT : n_type (hget r e) <> DOCUMENT) by (intro Et; apply HE, (doc_ends r HD); rewrite Et; discriminate).
    destruct (keyed_class s o CSection e HI HN) as (k & Ek); [repeat split; [discriminate..|exact NT]|].
    assert (F : snd (section_children o s) = Raise Fuel).
    { destruct (section_spec c HD o s HI (conj Ho Hc)) as (s' & v & ids & E & HI' & HX & HM & [->|(-> & _)]); [exfalso|rewrite E; reflexivity]. apply HE.
      unfold section_children, mbind at 1, the_obj in E. rewrite Hn in E. unfold mbind at 1, oset in E. unfold mbind at 1, hfuel in E. unfold mbind at 1 in E. rewrite He in E.
      match type of E with context [instantiate_elements ?f ?o ?e ?s] => destruct (instantiate_elements f o e s) as [s2 [[]|x]] eqn:Ei end; [|discriminate E].
      apply PropCopiesProofs.instantiate_ends in Ei. cbn in Ei. exact (PropCopiesProofs.ends_here s e HI Ei). }
    unfold print_of. unfold mbind at 1, the_obj. unfold mbind at 1, inode. rewrite Hc, He. rewrite (ca_type _ _ _ e HC), (ca_key _ _ _ e HC). fold r. rewrite Ek.
    destruct (itype_eqb (n_type (hget r e)) DOCUMENT) eqn:Et; [apply itype_eqb_eq in Et; contradiction|]. unfold mbind at 1, lift, key_or. unfold mbind.
    destruct (section_children o s) as [s' [l|x]]; [discriminate F|cbn [snd] in F; injection F as ->; reflexivity].
  Qed.

  (** * Parents *)
  Lemma parent_at s y cl e p : is_obj s y cl e (Some p) -> owned cl -> parent_of y s = (s, Ok (Some p)).
  Proof.
    intros (Hy & Hc & He & Hp) Ho. unfold parent_of. unfold mbind at 1, the_obj. unfold mbind at 1, inode. rewrite Hc, Hp. destruct cl; cbn in Ho; try contradiction; reflexivity.
  Qed.
  Lemma is_obj_on s s' y cl e p : Inv c s -> goes_on s s' -> is_obj s y cl e p -> is_obj s' y cl e p.
  Proof.
    intros HI HG (Hy & Hc & He & Hp). destruct (inv_on c HD s s' HG HI) as [_ [L X]]. destruct (X y Hy) as [X1 X2 X3 _ _ _ _]. repeat split; [lia|congruence..].
  Qed.
  Lemma parent_kept s y cl e p s' : reach c s -> is_obj s y cl e (Some p) -> owned cl -> goes_on s s' -> parent_of y s' = (s', Ok (Some p)).
  Proof. intros Hs HO Hc HG. apply (parent_at s' y cl e p); [|exact Hc]. apply (is_obj_on s); [exact (HR s Hs)|assumption..]. Qed.
  Lemma parent_owner s y cl e p : reach c s -> is_obj s y cl e (Some p) -> owned cl ->
    exists a, names s p (owner cl) a /\ (ends r a -> member_of r cl a e).
  Proof.
    intros Hs (Hy & Hc & He & Hp) Hcl. pose proof (HR s Hs) as HI. pose proof (iv_obj _ _ HI y Hy) as K. pose proof (oo_parent _ _ _ _ K) as P. rewrite Hp, Hc in P. destruct P as [P1 P2].
    assert (PC : o_class (oget s p) = owner cl) by (rewrite P2; destruct cl; cbn in Hcl; try contradiction; reflexivity).
    exists (o_instr (oget s p)). split; [repeat split; [lia|exact PC]|]. intro HE. pose proof (oo_home _ _ _ _ K p Hp) as H. rewrite Hc in H.
    assert (KIDS : forall l z, o_children (oget s p) = Some l -> In z l -> o_instr (oget s z) = e -> exists L, kid_list c (owner cl) (o_instr (oget s p)) L /\ In e L).
    { intros l z Hl Hz Ez. exists (map (fun y => o_instr (oget s y)) l). split; [|rewrite <- Ez; now apply (in_map (fun y => o_instr (oget s y)))].
      rewrite <- PC. apply (ki_list _ _ _ _ _ (oo_kids _ _ _ _ (iv_obj _ _ HI p ltac:(lia)) l Hl)). exact HE. }
    assert (ELEM : (exists z k, z < y /\ kind_class k = cl /\ o_class (oget s z) = CSectionElement /\ o_parent (oget s z) = Some p /\ yield_slot k (oget s z) = Some y) ->
      exists L, kid_list c (owner cl) (o_instr (oget s p)) L /\ In e L).
    { intros (z & k & Z1 & _ & Z3 & Z4 & Z5). assert (Zl : z < length (s_objs s)) by lia. pose proof (oo_home _ _ _ _ (iv_obj _ _ HI z Zl) p Z4) as G. rewrite Z3 in G. destruct G as (l & Gl & Gz).
      apply (KIDS l z Gl Gz). destruct (oo_slot _ _ _ _ (iv_obj _ _ HI z Zl) k y Z5) as (_ & _ & _ & Ei & _). congruence. }
    destruct cl; cbn in Hcl; try contradiction; first [exact (ELEM H)|destruct H as (l & Hl & Hin); exact (KIDS l y Hl Hin He)].
  Qed.

  (** sections and the document *)
  Lemma parent_section s y e : reach c s -> names s y CSection e ->
    (n_type (hget r e) <> DOCUMENT -> parent_of y s = (s, Ok None)) /\ (n_type (hget r e) = DOCUMENT -> parent_of y s = (s, Raise KeyError)).
  Proof.
    intros Hs (Hy & Hc & He). pose proof (HR s Hs) as HI. pose proof (co_heap _ _ _ (iv_ctx _ _ HI)) as HC. pose proof (iv_obj _ _ HI y Hy) as K.
    split; intro Ht; unfold parent_of; unfold mbind at 1, the_obj; unfold mbind at 1, inode; rewrite Hc, He, (ca_type _ _ _ e HC), ?(ca_parent _ _ _ e HC); fold r.
    - destruct (itype_eqb (n_type (hget r e)) DOCUMENT) eqn:E; [apply itype_eqb_eq in E; contradiction|reflexivity].
    - rewrite Ht. cbn [itype_eqb]. assert (e = 0) as ->.
      { destruct (Nat.eq_dec e 0) as [|N]; [assumption|]. pose proof (oo_instr _ _ _ _ K) as L. rewrite He in L. destruct (doc_parent r HD e) as (q & _ & _ & Hq & _); [split; [lia|exact L]|contradiction]. }
      assert (n_parent (hget r 0) = None) as -> by apply (doc_top _ HD).
      destruct (o_parent (oget s y)) as [p|] eqn:Ep; [exfalso|reflexivity].
      pose proof (oo_home _ _ _ _ K p Ep) as H. rewrite Hc in H. destruct H as (z & k & Z1 & Z2 & Z3 & Z4 & Z5). assert (Zl : z < length (s_objs s)) by lia.
      destruct (oo_slot _ _ _ _ (iv_obj _ _ HI z Zl) k y Z5) as (_ & _ & _ & Ei & _). pose proof (oo_class _ _ _ _ (iv_obj _ _ HI z Zl)) as G. rewrite Z3, <- Ei, He in G. destruct G as [G _]. apply G. exact Ht.
  Qed.
  (** what was read from something looked up *)
  Lemma parent_looked_up s y cl e : reach c s -> is_obj s y cl e None ->
    (cl = CFieldset \/ cl = CList -> exists a s', n_parent (hget r e) = Some a /\ parent_of y s = (s', Ok (Some (length (s_objs s)))) /\ is_obj s' (length (s_objs s)) CSection a None) /\
    (cl = CField \/ cl = CEmpty -> parent_of y s = (s, Raise AttributeError)).
  Proof.
    intros Hs (Hy & Hc & He & Hp). pose proof (HR s Hs) as HI. pose proof (co_heap _ _ _ (iv_ctx _ _ HI)) as HC. pose proof (class_of s y cl e HI (conj Hy (conj Hc He))) as [FIT L].
    split; intro Ht; unfold parent_of; unfold mbind at 1, the_obj; unfold mbind at 1, inode; rewrite Hc, He, Hp, ?(ca_parent _ _ _ e HC); fold r.
    - assert (NZ : 0 < e). { destruct e; [|lia]. destruct (doc_root r HD) as (_ & Er & _). rewrite Er in FIT. destruct Ht as [-> | ->]; discriminate FIT. }
      destruct (doc_parent r HD e) as (q & Eq & _); [split; assumption|]. exists q. rewrite Eq. exists (MkSt (s_ctx s) (s_objs s ++ [MkObj CSection q None false false None [] None None None None None None])).
      split; [reflexivity|]. split; [destruct Ht as [-> | ->]; reflexivity|].
      unfold is_obj, oget. cbn [s_objs]. rewrite app_length, nth_middle. cbn. repeat split. lia.
    - destruct Ht as [-> | ->]; reflexivity.
  Qed.

  (** by the queries that hand objects out *)
  Lemma parent_query s o x k key q s1 y s' : reach c s -> names s o CSection x -> ends r x -> query (Some k) o key q s = (s1, Ok (FObj y)) -> goes_on s1 s' ->
    parent_of y s' = (s', Ok (match k with KSection => None | _ => Some o end)).
  Proof.
    intros Hs HN HE E HG. destruct (element_list_total _ HD x HE) as (L & HL). pose proof (query_single HP s o x (Some k) key q L Hs HN HL) as Q. rewrite E in Q. cbn [fst snd] in Q.
    assert (R1 : reach c s1). { pose proof (PropRawProofs.reach_on c s (Query (Some k) o key q) Hs) as G. cbn [subject callable run_call] in G. destruct HN as (A & B & _). specialize (G A B). unfold mbind in G. rewrite E in G. exact G. }
    unfold single_answer in Q. destruct (filter _ L) as [|e [|e2 l]].
    - unfold none_found, raised in Q. destruct q as [[|]|], (o_req (oget s o)); try discriminate; destruct (v_missing_element _ _ _ _); discriminate.
    - destruct (readable _ _) eqn:Er; [|unfold raised in Q; destruct (v_unexpected_element_type _ _ _ _); discriminate].
      destruct Q as [(y' & [= <-] & HO & _)|[Q _]]; [|discriminate].
      assert (HO' : is_obj s' y (kind_class k) e (Some o)) by now apply (is_obj_on s1 s' y _ _ _ (HR s1 R1) HG).
      assert (k = KSection \/ owned (kind_class k)) as [-> |Hk] by (destruct k; cbn; auto).
      + destruct HO' as (A & B & C & _). apply (parent_section s' y e (reach_later c s1 s' R1 HG) (conj A (conj B C))). fold r in Er. intro Ht. rewrite Ht in Er. discriminate Er.
      + rewrite (parent_at s' y _ e o HO' Hk). destruct k; try reflexivity. contradiction.
    - unfold raised in Q. destruct (v_unexpected_multiple_elements _ _ _ _); discriminate.
  Qed.
  Lemma parent_entry s o x key q s1 y s' : reach c s -> names s o CFieldset x -> entry_query o key q s = (s1, Ok (FObj y)) -> goes_on s1 s' -> parent_of y s' = (s', Ok (Some o)).
  Proof.
    intros Hs HN E HG. assert (HE : ends r x). { apply (doc_ends r HD). destruct (class_of s o CFieldset x (HR s Hs) HN) as [G _]. intro Ht. rewrite Ht in G. discriminate G. }
    destruct (entry_list_total _ HD x HE) as (L & HL). pose proof (query_entry HP s o x key q L Hs HN HL) as Q. rewrite E in Q. cbn [fst snd] in Q.
    assert (R1 : reach c s1). { pose proof (PropRawProofs.reach_on c s (QueryEntry o key q) Hs) as G. cbn [subject callable run_call] in G. destruct HN as (A & B & _). specialize (G A B). unfold mbind in G. rewrite E in G. exact G. }
    unfold entry_answers in Q. destruct (filter _ L) as [|e [|e2 l]].
    - unfold none_found, raised in Q. destruct q as [[|]|], (o_req (oget s o)); try discriminate; destruct (v_missing_element _ _ _ _); discriminate.
    - destruct Q as (y' & [= <-] & HO). now apply (parent_kept s1 y CEntry e).
    - unfold raised in Q. destruct (v_unexpected_multiple_elements _ _ _ _); discriminate.
  Qed.
  Lemma parent_item s o x s1 ys y s' : reach c s -> names s o CList x -> list_items o s = (s1, Ok ys) -> In y ys -> goes_on s1 s' -> parent_of y s' = (s', Ok (Some o)).
  Proof.
    intros Hs HN E Hy HG. assert (HE : ends r x). { apply (doc_ends r HD). destruct (class_of s o CList x (HR s Hs) HN) as [G _]. intro Ht. rewrite Ht in G. discriminate G. }
    destruct (item_list_total r x HE) as (L & HL). destruct (query_items HP s o x L Hs HN HL) as (zs & E' & HF). rewrite E in E', HF. cbn [fst snd] in E', HF. injection E' as <-.
    assert (R1 : reach c s1). { pose proof (PropRawProofs.reach_on c s (ListItems o) Hs) as G. cbn [subject callable run_call] in G. destruct HN as (A & B & _). specialize (G A B). unfold mbind in G. rewrite E in G. exact G. }
    clear HL HE E. induction HF as [|z e zs es HO HF IH]; [destruct Hy|]. destruct Hy as [<-|Hy]; [|auto]. now apply (parent_kept s1 z CItem e).
  Qed.
End Parsed.
