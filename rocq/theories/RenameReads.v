(** RenameReads: the accessors on heaps with other keys and other values (lemmas for C60). *)
From Verif Require Import Base Types Analyzer Resolver SpecSaid SaidRun RenameRun Reporter Errors Context ReadOps SaidReads SpecRename.

Section Two.
  Context (d dd : text) (r q o : text -> text) (Hr : renaming r) (Hq : renaming q) (Ho : observation o).
  Definition near (h h' : heap) : Prop := casts r o (skins d h) = casts q o (skins dd h').
  Definition nearby (n n' : node) : Prop := cast r o (skin d n) = cast q o (skin dd n').
  Lemma near_get h h' e : near h h' -> nearby (hget h e) (hget h' e).
  Proof. intro H. unfold nearby. now rewrite <- !skins_get, <- !casts_get, H. Qed.
  Lemma near_length h h' : near h h' -> length h = length h'.
  Proof. intro H. rewrite <- (skins_length d h), <- (skins_length dd h'), <- (casts_length r o (skins d h)), <- (casts_length q o (skins dd h')). now rewrite H. Qed.
  Lemma near_key h h' e : near h h' -> r (key_of h e) = q (key_of h' e).
  Proof. intro H. pose proof (f_equal (fun h => key_of h e) H) as E. cbv beta in E. rewrite (key_sk r o Hr), (key_sk q o Hq) in E. unfold key_of in *. rewrite !skins_get in E. exact E. Qed.
  Lemma near_upd h h' e f f' g : (forall n, cast r o (skin d (f n)) = g (cast r o (skin d n))) -> (forall n, cast q o (skin dd (f' n)) = g (cast q o (skin dd n))) -> near h h' -> near (hupd h e f) (hupd h' e f').
  Proof.
    intros Hf Hf' H. unfold near, casts, skins in *. rewrite !map_map in *. set (a := fun n => cast r o (skin d n)) in *. set (b := fun n => cast q o (skin dd n)) in *.
    change (forall n, a (f n) = g (a n)) in Hf. change (forall n, b (f' n) = g (b n)) in Hf'. clearbody a b. revert H. revert h h'. unfold hupd.
    induction e as [|e IH]; intros [|x h] [|y h'] H; try discriminate; try reflexivity; cbn in *; assert (a x = b y /\ map a h = map b h') as [H1 H2] by (split; congruence); f_equal; auto. now rewrite Hf, Hf', H1.
  Qed.

  Definition rel {A} (R : A -> A -> Prop) (x x' : res A) : Prop :=
    match x, x' with Ok a, Ok a' => R a a' | Raise e, Raise e' => e = e' | _, _ => False end.
  Definition agr {A} (R : A -> A -> Prop) (m m' : hM A) : Prop := forall h h', near h h' -> near (fst (m h)) (fst (m' h')) /\ rel R (snd (m h)) (snd (m' h')).
  Lemma agr_ret {A} (R : A -> A -> Prop) a a' : R a a' -> agr R (ret a) (ret a').
  Proof. intros HR h h' H. now split. Qed.
  Lemma agr_raise {A} (R : A -> A -> Prop) e : agr R (raise e : hM A) (raise e).
  Proof. intros h h' H. now split. Qed.
  Lemma agr_lift {A} (x : res A) : agr eq (lift x) (lift x).
  Proof. intros h h' H. split; [assumption|]. destruct x; reflexivity. Qed.
  Lemma agr_bind {A B} (R : A -> A -> Prop) (Q : B -> B -> Prop) (m m' : hM A) (f f' : A -> hM B) :
    agr R m m' -> (forall a a', R a a' -> agr Q (f a) (f' a')) -> agr Q (mbind m f) (mbind m' f').
  Proof.
    intros Hm Hf h h' H. destruct (Hm h h' H) as [K E]. unfold mbind. destruct (m h) as [h1 r1], (m' h') as [h2 r2]. cbn in K, E. destruct r1, r2; cbn in E; try contradiction; [now apply Hf|now split].
  Qed.
  Lemma agr_bindq {A B} (Q : B -> B -> Prop) (m m' : hM A) (f f' : A -> hM B) : agr eq m m' -> (forall a, agr Q (f a) (f' a)) -> agr Q (mbind m f) (mbind m' f').
  Proof. intros Hm Hf. eapply agr_bind; [exact Hm|]. intros a ? <-. apply Hf. Qed.
  Lemma agr_node {A} (R : A -> A -> Prop) e (f f' : node -> hM A) : (forall n n', nearby n n' -> agr R (f n) (f' n')) -> agr R (mbind (hnode e) f) (mbind (hnode e) f').
  Proof. intros Hf h h' H. unfold mbind, hnode. apply Hf; [now apply near_get|assumption]. Qed.
  Lemma agr_get {A} (R : A -> A -> Prop) (f f' : heap -> hM A) : (forall h h', near h h' -> agr R (f h) (f' h')) -> agr R (mbind get f) (mbind get f').
  Proof. intros Hf h h' H. unfold mbind, get. now apply Hf. Qed.
  Lemma agr_set e f : (forall k i n, cast k o (skin i (f n)) = f (cast k o (skin i n))) -> agr eq (hset e f) (hset e f).
  Proof. intros Hf h h' H. split; [|reflexivity]. now apply near_upd with (g := f). Qed.
  Lemma agr_mapM {A B} (R : B -> B -> Prop) (f f' : A -> hM B) l : (forall a, agr R (f a) (f' a)) -> agr (Forall2 R) (mapM f l) (mapM f' l).
  Proof.
    intro H. induction l as [|a l IH]; cbn [mapM]; [apply agr_ret; constructor|]. eapply agr_bind; [apply H|]. intros y y' Hy. eapply agr_bind; [exact IH|]. intros ys ys' Hys. apply agr_ret. now constructor.
  Qed.

  Ltac twin H := pose proof (f_equal n_type H); pose proof (f_equal n_elements H); pose proof (f_equal n_items H);
    pose proof (f_equal n_entries H); pose proof (f_equal n_mirror H); pose proof (f_equal n_extend H); pose proof (f_equal n_ccomment H);
    pose proof (f_equal n_cels H); pose proof (f_equal n_centries H); pose proof (f_equal n_citems H);
    cbn [cast skin n_type n_elements n_items n_entries n_mirror n_extend n_ccomment n_cels n_centries n_citems] in *;
    repeat match goal with E : _ ?n = _ ?n' |- _ => rewrite <- E; clear E end.
  Ltac go := repeat match goal with
    | |- agr _ (ret _) _ => apply agr_ret; reflexivity
    | |- agr _ (raise _) _ => apply agr_raise
    | |- agr _ (lift _) _ => apply agr_lift
    | |- agr _ (hset _ _) _ => apply agr_set; reflexivity
    | H : forall e, agr _ (?f e) (?g e) |- agr _ (?f _) (?g _) => apply H
    | |- agr _ (mbind (hnode _) _) _ => let n := fresh "n" in let n' := fresh "n'" in let H := fresh "T" in apply agr_node; intros n n' H; twin H
    | |- agr _ (mbind get _) _ => apply agr_get; intros ? ? ?
    | |- agr _ (mbind _ _) (mbind _ _) => apply agr_bindq; [|intro]
    | |- agr _ (match ?x with _ => _ end) _ => destruct x
    end.

  Lemma filter_near h h' own l : near h h' -> filter (fun e => negb (has_key h own e)) l = filter (fun e => negb (has_key h' own e)) l.
  Proof.
    intro H. apply filter_ext. intro e. f_equal. unfold has_key. induction own as [|x own IH]; cbn; [reflexivity|]. rewrite IH. f_equal.
    rewrite <- (eqb_ren r Hr), (near_key h h' e H), (near_key h h' x H). apply (eqb_ren q Hq).
  Qed.
  Lemma agr_comment e : agr eq (comment e) (comment e).
  Proof.
    unfold comment. cbv zeta. apply agr_node. intros n n' H. pose proof (f_equal n_comments H) as Ec. pose proof (f_equal n_ccomment H) as Ev. cbn [cast skin n_comments n_ccomment] in Ec, Ev.
    rewrite <- Ev. destruct (n_ccomment n); [now apply agr_ret|]. destruct (n_comments n) as [cs|], (n_comments n') as [cs'|]; try discriminate; [|go].
    injection Ec as Ec. pose proof (multi_skin cs) as M. rewrite Ec, multi_skin in M. pose proof (lev_texts cs) as X. rewrite Ec, lev_texts in X.
    destruct cs as [|x [|y cs]], cs' as [|x' [|y' cs']]; try discriminate; [go| |rewrite M; go].
    cbn [map] in X. injection X as Et. rewrite Et. go.
  Qed.
  Lemma agr_items f : forall e, agr eq (items f e) (items f e).
  Proof. induction f as [|f IH]; intro e; cbn [items]; cbv zeta; go. Qed.
  Lemma agr_entries f : forall e, agr eq (entries f e) (entries f e).
  Proof.
    induction f as [|f IH]; intro e; cbn [entries]; cbv zeta; go.
    all: match goal with H : near ?h ?h' |- _ => rewrite (filter_near h h' _ _ H) end; go.
  Qed.
  Lemma agr_elements f : forall e, agr eq (elements f e) (elements f e).
  Proof.
    induction f as [|f IH]; intro e; cbn [elements]; cbv zeta; go.
    all: match goal with H : near ?h ?h' |- _ => rewrite (filter_near h h' _ _ H) end; go.
  Qed.
  Definition near_text (v v' : option text) : Prop := option_map o v = option_map o v'.
  Lemma join_near cs : forall cs' v v' sp, near_text v v' -> map (cast_leaf o) cs = map (cast_leaf o) cs' -> near_text (join_conts v sp cs) (join_conts v' sp cs').
  Proof.
    unfold near_text. induction cs as [|c cs IH]; intros [|c' cs'] v v' sp Hv Hc; try discriminate; cbn [join_conts]; [assumption|]. cbn [map] in Hc.
    assert (cast_leaf o c = cast_leaf o c' /\ map (cast_leaf o) cs = map (cast_leaf o) cs') as [H1 H2] by (split; congruence).
    pose proof (f_equal l_text H1) as Et. pose proof (f_equal l_spaced H1) as Es. cbn [cast_leaf l_text l_spaced] in Et, Es. rewrite <- Es.
    destruct v as [v|], v' as [v'|]; try discriminate; destruct (l_text c) as [x|], (l_text c') as [x'|]; try discriminate; try (now apply IH).
    injection Hv as Hv. injection Et as Et. destruct (l_spaced c || sp)%bool; apply IH; try assumption; cbn [option_map]; f_equal.
    - apply Ho; [assumption|]. change (32%N :: x) with ([32%N] ++ x). change (32%N :: x') with ([32%N] ++ x'). now apply Ho.
    - now apply Ho.
  Qed.
  Lemma own_near n n' : nearby n n' -> near_text (own_value d n) (own_value dd n').
  Proof.
    intro H. rewrite !own_value_skin. unfold nearby in H. generalize dependent (skin dd n'). generalize (skin d n). clear n n'. intros n n' H. unfold skin_value.
    pose proof (f_equal n_type H) as E1. pose proof (f_equal n_conts H) as E2. pose proof (f_equal n_value H) as E3. pose proof (f_equal n_lines H) as E4. cbn [cast n_type n_conts n_value n_lines] in *.
    rewrite <- E1. assert (near_text match n_conts n with Some cs => join_conts (n_value n) false cs | None => n_value n end match n_conts n' with Some cs => join_conts (n_value n') false cs | None => n_value n' end) as K
      by (destruct (n_conts n), (n_conts n'); try discriminate; [apply join_near; [exact E3|now injection E2]|exact E3]).
    destruct (n_type n); try exact K. clear K.
    destruct (n_lines n) as [[|l ls]|], (n_lines n') as [[|l' ls']|]; try discriminate; try reflexivity. cbn in E4. injection E4 as _ _ _ E4 _ _. exact E4.
  Qed.
  Lemma agr_value f : forall e, agr near_text (value d f e) (value dd f e).
  Proof.
    induction f as [|f IH]; intro e; cbn [value]; cbv zeta; [apply agr_raise|]. apply agr_node. intros n n' H. pose proof (f_equal n_cvalue H) as Ec. pose proof (own_near n n' H) as Hv. cbn [cast skin n_cvalue] in Ec. twin H.
    destruct (n_cvalue n) as [v|], (n_cvalue n') as [v'|]; try discriminate; [apply agr_ret; injection Ec; auto|]. destruct (n_mirror n); [apply IH|].
    eapply agr_bind with (R := eq); [|intros; now apply agr_ret]. intros h h' Hh. split; [|reflexivity].
    apply near_upd with (g := set_cvalue (Some (option_map o (own_value d n)))); [reflexivity| |assumption]. intro x. red in Hv. rewrite Hv. reflexivity.
  Qed.
  Definition near_raw (x x' : raw_t) : Prop := raw_as r o x = raw_as q o x'.
  Lemma near_raws l l' : Forall2 near_raw l l' -> map (raw_as r o) l = map (raw_as q o) l'.
  Proof. induction 1 as [|x x' l l' H _ IH]; cbn; [reflexivity|]. now rewrite H, IH. Qed.
  Lemma agr_key n n' : nearby n n' -> agr (fun k k' => r k = q k') (lift (key_or (n_key n))) (lift (key_or (n_key n'))).
  Proof.
    intros H h h' Hh. split; [assumption|]. pose proof (f_equal n_key H) as E. cbn [cast skin n_key] in E. destruct (n_key n), (n_key n'); try discriminate; [|reflexivity]. injection E as E. exact E.
  Qed.
  Lemma agr_raw f : forall e, agr near_raw (raw d f e) (raw dd f e).
  Proof.
    induction f as [|f IH]; intro e; cbn [raw]; cbv zeta; [apply agr_raise|]. apply agr_get. intros h h' Hh. rewrite <- (near_length h h' Hh).
    apply agr_node. intros n n' H. pose proof (agr_key n n' H) as Hk. pose proof (f_equal n_comments H) as Ec. cbn [cast skin n_comments] in Ec. twin H. apply agr_bindq.
    - destruct (n_comments n), (n_comments n'); try discriminate; go. apply agr_comment.
    - assert (forall l, agr (Forall2 near_raw) (mapM (raw d f) l) (mapM (raw dd f) l)) as M by (intro l; now apply agr_mapM).
      intro c. destruct (n_type n); repeat match goal with
        | |- agr _ (mbind (lift (key_or _)) _) _ => eapply agr_bind; [exact Hk|]; intros k k' Ek
        | |- agr _ (mbind (value _ _ _) _) _ => eapply agr_bind; [apply agr_value|]; intros v v' Hv; apply agr_ret; unfold near_raw; cbn [raw_as]; red in Hv; rewrite Hv; congruence
        | |- agr _ (mbind (mapM _ _) _) _ => eapply agr_bind; [apply M|]; intros v v' Hv; apply agr_ret; unfold near_raw; cbn [raw_as]; rewrite (near_raws _ _ Hv); congruence
        | |- agr _ (mbind (items _ _) _) _ => apply agr_bindq; [apply agr_items|intro]
        | |- agr _ (mbind (entries _ _) _) _ => apply agr_bindq; [apply agr_entries|intro]
        | |- agr _ (mbind (elements _ _) _) _ => apply agr_bindq; [apply agr_elements|intro]
        | |- agr _ (match ?x with _ => _ end) _ => destruct x
        | |- agr _ (raise _) _ => apply agr_raise
        | |- agr _ (ret _) _ => apply agr_ret; unfold near_raw; cbn [raw_as]; congruence
        end.
  Qed.
  Definition alike (a : ask) (x x' : res answer) : Prop := answer_as r o a x = answer_as q o a x'.
  Lemma agr_ask a : forall h h', near h h' -> near (fst (do_ask d a h)) (fst (do_ask dd a h')) /\ alike a (snd (do_ask d a h)) (snd (do_ask dd a h')).
  Proof.
    assert (agr (fun x x' => alike a (Ok x) (Ok x')) (do_ask d a) (do_ask dd a)) as K.
    - unfold do_ask. cbv zeta. apply agr_get. intros h h' Hh. rewrite <- (near_length h h' Hh). destruct a.
      + eapply agr_bind; [apply agr_value|]. intros v v' Hv. apply agr_ret. unfold alike. cbn [answer_as]. red in Hv. now rewrite Hv.
      + apply agr_bindq; [apply agr_comment|]. intro. now apply agr_ret.
      + apply agr_bindq; [apply agr_items|]. intro. now apply agr_ret.
      + apply agr_bindq; [apply agr_entries|]. intro. now apply agr_ret.
      + apply agr_bindq; [apply agr_elements|]. intro. now apply agr_ret.
      + eapply agr_bind; [apply agr_raw|]. intros v v' Hv. apply agr_ret. unfold alike. cbn [answer_as]. red in Hv. now rewrite Hv.
    - intros h h' H. destruct (K h h' H) as [K1 K2]. split; [assumption|]. destruct (snd (do_ask d a h)), (snd (do_ask dd a h')); cbn [rel] in K2; try contradiction; [assumption|]. subst. reflexivity.
  Qed.
  Lemma after_near hist : forall h h', near h h' -> near (after d hist h) (after dd hist h').
  Proof. induction hist as [|a hist IH]; intros h h' H; cbn [after]; [assumption|]. apply IH. now apply agr_ask. Qed.
  Lemma answered_near hist a h h' : near h h' -> alike a (answered d a (after d hist h)) (answered dd a (after dd hist h')).
  Proof. intro H. unfold answered. now apply (agr_ask a), after_near. Qed.
End Two.
