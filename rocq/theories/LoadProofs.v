(** LoadProofs: reading values, comments and keys in any state of a session. *)
From Verif Require Import Base Types Messages Resolver Reporter Errors Context Elements SpecTree SpecRead SpecApi SpecQuery SpecLoad Reads ReadLinks PropReadProofs ErrorCaches ApiDoc ApiInv ApiState ApiOps Session SessionInv QueryProofs.

Section Loads.
  Context (c0 : ctx) (HD : Doc (c_heap c0)).
  Let r := c_heap c0.
  Let inp := c_input c0.
  Notation Inv := (Inv c0).

  Lemma value_text_at e v : value_text inp r e v <-> value_at inp r e v.
  Proof.
    split.
    - induction 1 as [e v H1 H2|e m v H1 H2 IH]; [|eapply va_mirror; eassumption].
      rewrite (plain_value_fun inp _ _ _ H2 (own_plain inp (hget r e))). now apply va_own.
    - induction 1 as [e H1|e m v H1 H2 IH]; [apply vt_own; [assumption|apply own_plain]|eapply vt_mirror; eassumption].
  Qed.
  Lemma value_text_total e : ends r e -> exists v, value_text inp r e v.
  Proof.
    intro He. destruct (ends_path r e He) as (p & Hp). destruct (value_ends inp r e p Hp) as (v & Hv). exists v. now apply value_text_at.
  Qed.
  Lemma value_text_fun e v w : value_text inp r e v -> value_text inp r e w -> v = w.
  Proof. rewrite !value_text_at. apply value_at_fun. Qed.

  Lemma names_touch s o cl e : names s o cl e -> let s1 := upd_obj o with_touched s in names s1 o cl e /\ s_ctx s1 = s_ctx s.
  Proof.
    intros (A & B & C). cbn. unfold names. rewrite touched_get, Nat.eqb_refl. unfold upd_obj at 1. cbn [s_objs]. rewrite upd_length.
    destruct (Nat.ltb_spec o (length (s_objs s))); [|lia]. cbn. auto.
  Qed.
  Lemma on_heap_inv {A} (m : hM A) s : Inv s -> keeping inp r m -> Inv (fst (on_heap m s)).
  Proof. intros HI Hm. exact (proj1 (ok_heap c0 m s HI Hm)). Qed.

  Lemma loader_is {A} (ld : loader A) t err s : Inv s -> (forall m, blind (err m)) -> run_loader ld t err s = (s, loaded ld t (fun m => err m c0)).
  Proof. intros HI Hb. unfold run_loader, loaded. destruct (ld t) as [a|m|n]; [reflexivity|apply fail_is; auto|reflexivity]. Qed.

  Lemma value_outcome_is {A} o cl e (ld : loader A) req s v : ends r e -> Inv s -> names s o cl e -> value_text inp r e v ->
    snd (value_of o ld req s) = value_outcome c0 e ld req v.
  Proof.
    intros Hends HI HN Hv. apply value_text_at in Hv. destruct (names_touch s o cl e HN) as [HN1 _]. destruct (touched_inv c0 o s HI) as [HI1 _].
    set (s1 := upd_obj o with_touched s) in *. destruct HN1 as (_ & _ & He).
    unfold value_of. unfold mbind at 1, touch_obj, oset. fold s1. unfold mbind at 1, the_obj. unfold mbind at 1, the_ctx. unfold mbind at 1, hfuel. unfold mbind at 1. rewrite He.
    pose proof (on_heap_inv (value inp (S (length (c_heap (s_ctx s1)))) e) s1 HI1 (keeping_value _ _ _ _)) as HI2.
    rewrite (ctx_input c0 _ HI1). fold inp. unfold on_heap in *. pose proof (co_heap _ _ _ (iv_ctx _ _ HI1)) as HC.
    destruct (ends_path r e Hends) as (p & Hp).
    destruct (value_run inp r e p Hp [] (S (length (c_heap (s_ctx s1)))) _ HC) as (w & h' & E & Hw & _).
    { rewrite (ca_len _ _ _ _ HC). exact (path_length r e p Hp). }
    rewrite E in *. cbn [fst] in HI2. rewrite (value_at_fun inp r e w v Hw Hv). unfold value_outcome. destruct v as [t|].
    - unfold mbind. rewrite loader_is; [|assumption|intros m c; apply strip_value_error]. unfold present, ret. now destruct (loaded _ _ _).
    - unfold absent_is. destruct req; [|reflexivity]. rewrite (fail_is c0); [reflexivity|assumption|]. intro c. apply strip_missing_value.
  Qed.

  Lemma comment_text_at e v : hollow_comment r e = false -> comment_text r e v <-> comment_at r e v.
  Proof.
    unfold hollow_comment, comment_text, comment_at. destruct (n_comments (hget r e)) as [[|x [|y ls]]|]; intro Hh.
    - split; [intro H; eapply block_text_fun; [eassumption|apply multi_block]|intros ->; apply multi_block].
    - destruct (l_text x) as [t|] eqn:Et; [|discriminate]. split.
      + intro H. split; [discriminate|]. eapply block_text_fun; [eassumption|now apply single_block].
      + intros [_ ->]. now apply single_block.
    - split; [intro H; eapply block_text_fun; [eassumption|apply multi_block]|intros ->; apply multi_block].
    - reflexivity.
  Qed.
  Lemma comment_outcome_is {A} o cl e (ld : loader A) req s v : Inv s -> names s o cl e -> comment_text r e v ->
    snd (comment_of o ld req s) = comment_outcome c0 e ld req v.
  Proof.
    intros HI HN Hv. destruct (names_touch s o cl e HN) as [HN1 _]. destruct (touched_inv c0 o s HI) as [HI1 _].
    set (s1 := upd_obj o with_touched s) in *. destruct HN1 as (_ & _ & He).
    unfold comment_of. unfold mbind at 1, touch_obj, oset. fold s1. unfold mbind at 1, the_obj. unfold mbind at 1. rewrite He.
    pose proof (on_heap_inv (comment e) s1 HI1 (keeping_comment _ _ _)) as HI2.
    unfold on_heap in *. pose proof (co_heap _ _ _ (iv_ctx _ _ HI1)) as HC. unfold comment_outcome. fold r.
    destruct (comment_run inp r e [] _ HC) as [(x & E1 & E2 & E)|(w & h' & E & Hw & _)]; rewrite E in *; cbn [fst] in HI2.
    - unfold hollow_comment. rewrite E1, E2. reflexivity.
    - assert (Hh : hollow_comment r e = false).
      { unfold hollow_comment, comment_at in *. destruct (n_comments (hget r e)) as [[|x [|y ls]]|]; try reflexivity. destruct Hw as [Hw _]. now destruct (l_text x). }
      rewrite Hh. apply (comment_text_at e v Hh) in Hv. rewrite (comment_at_fun r e w v Hw Hv).
      assert (forall s', Inv s' -> snd ((if req then fail (fun c => v_missing_comment c e) else ret (@None A)) s') = absent_is req (v_missing_comment c0 e)) as G.
      { intros s' HI'. unfold absent_is. destruct req; [|reflexivity]. rewrite (fail_is c0); [reflexivity|assumption|]. intro c. apply strip_missing_comment. }
      destruct v as [[|ch t]|]; try (now apply G).
      unfold mbind. rewrite loader_is; [|assumption|intros m c; apply strip_comment_error]. unfold present, ret. now destruct (loaded _ _ _).
  Qed.
  Lemma comment_text_total e : exists v, comment_text r e v.
  Proof. unfold comment_text. destruct (n_comments (hget r e)); [exists (multi_comment l); apply multi_block|eauto]. Qed.
  Lemma comment_text_fun e v w : comment_text r e v -> comment_text r e w -> v = w.
  Proof. unfold comment_text. destruct (n_comments (hget r e)); [apply block_text_fun|congruence]. Qed.

  Lemma plain_key_is o cl e s : Inv s -> names s o cl e -> plain_key o s = (s, match read_key r e with Some k => Ok k | None => Raise KeyError end).
  Proof.
    intros HI (_ & _ & He). pose proof (co_heap _ _ _ (iv_ctx _ _ HI)) as HC.
    unfold plain_key. unfold mbind at 1, the_obj. unfold mbind at 1, inode. rewrite He. rewrite (ca_type _ _ _ e HC), (ca_parent _ _ _ e HC), (ca_key _ _ _ e HC).
    unfold read_key, key_or, lift, mbind. fold r. destruct (n_type (hget r e)); cbn [itype_eqb]; try (now destruct (n_key (hget r e))).
    destruct (n_parent (hget r e)) as [p|]; [|reflexivity]. rewrite (ca_key _ _ _ p HC). fold r. now destruct (n_key (hget r p)).
  Qed.
  Lemma key_outcome_is {A} o cl e (ld : loader A) s : Inv s -> names s o cl e -> snd (key_with o ld s) = key_outcome c0 e ld.
  Proof.
    intros HI HN. destruct (names_touch s o cl e HN) as [HN1 _]. destruct (touched_inv c0 o s HI) as [HI1 _].
    set (s1 := upd_obj o with_touched s) in *. unfold key_with. unfold mbind at 1, touch_obj, oset. fold s1. unfold mbind at 1, the_obj. unfold mbind.
    rewrite (plain_key_is o cl e s1 HI1 HN1). unfold key_outcome. fold r. destruct (read_key r e); [|reflexivity].
    destruct HN1 as (_ & _ & ->). rewrite loader_is; [reflexivity|assumption|intros m c; apply strip_key_error].
  Qed.
  Lemma string_key_is o cl e s : Inv s -> names s o cl e -> snd (string_key o s) = match read_key r e with Some k => Ok k | None => Raise KeyError end.
  Proof.
    intros HI HN. destruct (names_touch s o cl e HN) as [HN1 _]. destruct (touched_inv c0 o s HI) as [HI1 _].
    unfold string_key. unfold mbind, touch_obj, oset. now rewrite (plain_key_is o cl e _ HI1 HN1).
  Qed.

  Lemma values_in_turn {A} (ld : loader A) req ys es vs : (forall x, In x es -> ends r x) -> forall s, Inv s -> Forall2 (fun y e => names s y CItem e) ys es -> Forall2 (value_text inp r) es vs ->
    in_turn (map (fun p => value_outcome c0 (fst p) ld req (snd p)) (combine es vs)) (snd (mapM (fun i => value_of i ld req) ys s)).
  Proof.
    intros Hes s HI HY HV. revert s HI HY. revert ys Hes. induction HV as [|e v es vs HV HVs IH]; intros ys Hes s HI HY; inversion HY as [|y e' ys' es' Hy Hys]; subst; cbn [mapM map combine fst snd].
    - constructor.
    - unfold mbind at 1. pose proof (value_outcome_is y CItem e ld req s v (Hes e (or_introl eq_refl)) HI Hy HV) as E. pose proof (ok_value c0 y ld req s HI) as [K1 K2].
      destruct (value_of y ld req s) as [s1 w] eqn:Ew. cbn [fst snd] in *. rewrite <- E. destruct w as [a|x]; [|constructor].
      assert (Hys1 : Forall2 (fun y e => names s1 y CItem e) ys' es).
      { clear - Hys K2. induction Hys as [|y e ys es (A1 & A2 & A3) _ IH]; constructor; [|assumption]. destruct K2 as [L H]. destruct (H y A1) as [X1 X2 _ _ _ _ _]. repeat split; [lia|congruence..]. }
      specialize (IH ys' (fun x Hx => Hes x (or_intror Hx)) s1 K1 Hys1). unfold mbind. destruct (mapM (fun i => value_of i ld req) ys' s1) as [s2 [bs|x]]; cbn [snd ret] in *; now constructor.
  Qed.
  Lemma items_end e L : item_list r e L -> forall x, In x L -> ends r x.
  Proof.
    intros HL x Hx. destruct (item_list_from c0 e L HL x Hx) as (e' & He'). destruct (doc_items r HD e' x He') as [_ Ht]. apply (doc_ends r HD). fold r. rewrite Ht. discriminate.
  Qed.
  Lemma list_values_is {A} o e (ld : loader A) req s L vs : Inv s -> names s o CList e -> item_list r e L -> Forall2 (value_text inp r) L vs ->
    in_turn (map (fun p => value_outcome c0 (fst p) ld req (snd p)) (combine L vs)) (snd (list_values o ld req s)).
  Proof.
    intros HI HN HL HV. destruct (items_answer c0 HD o e s L HI HN HL) as (ys & E & HY). pose proof (ok_items c0 HD o s HI) as HO.
    destruct HN as (N1 & N2 & N3). specialize (HO (conj N1 N2)). destruct HO as [K1 _].
    unfold list_values, mbind. destruct (list_items o s) as [s1 w]. cbn [fst snd] in *. subst w. apply values_in_turn with (es := L); try assumption; [exact (items_end e L HL)|].
    clear - HY. induction HY as [|y e ys es (A1 & A2 & A3 & _) _ IH]; constructor; [now repeat split|assumption].
  Qed.
End Loads.

(** * Messages *)
Lemma build_text q s sel er : build (Ok q) s sel = Ok er -> er_text er = q.
Proof. unfold build, bind. destruct s as [s|]; [|discriminate]. destruct sel; [|discriminate]. intros [= <-]. reflexivity. Qed.
Lemma value_error_text c m e er : v_value_error c m e = Ok er -> er_text er = lc_value_error (c_locale c) m.
Proof.
  unfold v_value_error. cbv zeta. assert (G : forall s sel, (do s <- s; do sel <- sel; Ok (MkErr (lc_value_error (c_locale c) m) s sel)) = Ok er -> er_text er = lc_value_error (c_locale c) m).
  { intros s sel. unfold bind. destruct s; [|discriminate]. destruct sel; [|discriminate]. intros [= <-]. reflexivity. }
  destruct (opt_is _); [apply G|]. destruct (itype_eqb _ _); [|apply G]. destruct (n_lines _); apply G.
Qed.
Lemma comment_error_text c m e er : v_comment_error c m e = Ok er -> er_text er = lc_comment_error (c_locale c) m. Proof. apply build_text. Qed.
Lemma key_error_text c m e er : v_key_error c m e = Ok er -> er_text er = lc_key_error (c_locale c) m. Proof. apply build_text. Qed.

Lemma told (l : locale) m : l = en \/ l = de \/ l = es -> contains (lc_value_error l m) m /\ contains (lc_comment_error l m) m /\ contains (lc_key_error l m) m.
Proof.
  intro H. assert (G : forall a : text, contains (a ++ m) m) by (intro a; exists a, []; now rewrite app_nil_r).
  destruct H as [->|[->| ->]]; (split; [|split]); cbn [lc_value_error lc_comment_error lc_key_error en de es]; apply G.
Qed.
