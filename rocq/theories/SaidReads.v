(** SaidReads: the accessors give the same answers for heaps that differ in positions only (lemmas for C57). *)
From Verif Require Import Base Types Analyzer Resolver SpecSaid SaidRun Reporter Errors Context ReadOps.

(** * Values and comments *)

Definition skin_value (n : node) : option text :=
  match n_type n with
  | MULTILINE_FIELD_BEGIN => match n_lines n with Some (l :: _) => l_text l | _ => None end
  | _ => match n_conts n with Some cs => join_conts (n_value n) false cs | None => n_value n end
  end.
Lemma join_skin cs : forall v sp, join_conts v sp (map skin_cont cs) = join_conts v sp cs.
Proof. induction cs as [|c cs IH]; intros v sp; cbn [map join_conts]; [reflexivity|]. cbn [skin_cont l_text l_spaced]. destruct v, (l_text c); try apply IH. destruct (l_spaced c || sp)%bool; apply IH. Qed.
Lemma own_value_skin inp n : own_value inp n = skin_value (skin inp n).
Proof.
  unfold own_value, skin_value. cbn [skin n_type n_lines n_conts n_value]. destruct (n_type n); try (destruct (n_conts n); cbn [option_map]; [symmetry; apply join_skin|reflexivity]).
  destruct (n_lines n) as [[|l ls]|]; reflexivity.
Qed.
Definition shifted (m : nat) (l : leaf) : leaf := plain_comment (comment_indent l - m) (l_text l).
Lemma indent_shifted m l : comment_indent (shifted m l) = comment_indent l - m.
Proof. unfold shifted, comment_indent at 1. cbn. lia. Qed.
Definition right_of (m : nat) (l : leaf) : Prop := l_text l <> None -> m <= comment_indent l.
Lemma scan_shifted m cs : Forall (right_of m) cs -> forall i first sh lst, match sh with Some s => m <= s | None => True end ->
  let step := fun a l => let '(i, first, shared, lst) := a in
    match l_text l with
    | None => (S i, first, shared, lst)
    | Some _ => (S i, match first with None => Some i | _ => first end,
         match shared with None => Some (comment_indent l) | Some s => if Nat.ltb (comment_indent l) s then Some (comment_indent l) else Some s end, i)
    end in
  let '(i', first', sh', lst') := fold_left step cs (i, first, sh, lst) in
  match sh' with Some s => m <= s | None => True end /\
  fold_left step (map (shifted m) cs) (i, first, option_map (fun s => s - m) sh, lst) = (i', first', option_map (fun s => s - m) sh', lst').
Proof.
  intro H. cbv zeta. induction H as [|l cs Hl _ IH]; intros i first sh lst Hs; cbn [map fold_left]; [split; [assumption|reflexivity]|].
  change (l_text (shifted m l)) with (l_text l). rewrite indent_shifted. destruct (l_text l) as [t|] eqn:E; [|now apply IH].
  assert (m <= comment_indent l) as Hm by (apply Hl; rewrite E; discriminate).
  replace (match option_map (fun s => s - m) sh with Some s => if comment_indent l - m <? s then Some (comment_indent l - m) else Some s | None => Some (comment_indent l - m) end)
    with (option_map (fun s => s - m) (match sh with Some s => if comment_indent l <? s then Some (comment_indent l) else Some s | None => Some (comment_indent l) end)).
  - apply IH. destruct sh as [s|]; [|assumption]. destruct (comment_indent l <? s); assumption.
  - destruct sh as [s|]; cbn [option_map]; [|reflexivity]. destruct (Nat.ltb_spec (comment_indent l) s), (Nat.ltb_spec (comment_indent l - m) (s - m)); cbn; try reflexivity; lia.
Qed.
Lemma shared_low cs : forall i first sh lst,
  let step := fun a l => let '(i, first, shared, lst) := a in
    match l_text l with
    | None => (S i, first, shared, lst)
    | Some _ => (S i, match first with None => Some i | _ => first end,
         match shared with None => Some (comment_indent l) | Some s => if Nat.ltb (comment_indent l) s then Some (comment_indent l) else Some s end, i)
    end in
  let '(_, _, sh', _) := fold_left step cs (i, first, sh, lst) in
  match sh with Some s => exists s', sh' = Some s' /\ s' <= s | None => True end /\
  forall l, In l cs -> l_text l <> None -> exists s', sh' = Some s' /\ s' <= comment_indent l.
Proof.
  cbv zeta. induction cs as [|l cs IH]; intros i first sh lst; cbn [fold_left].
  - split; [destruct sh; eauto|]. intros l [].
  - destruct (l_text l) as [t|] eqn:E.
    + specialize (IH (S i) (match first with None => Some i | _ => first end) (match sh with None => Some (comment_indent l) | Some s => if Nat.ltb (comment_indent l) s then Some (comment_indent l) else Some s end) i).
      destruct (fold_left _ cs _) as [[[? ?] sh'] ?]. destruct IH as [A B]. split.
      * destruct sh as [s|]; [|exact I]. destruct (Nat.ltb_spec (comment_indent l) s); destruct A as (s' & ? & ?); exists s'; split; auto; lia.
      * intros x [<-|Hx] Hn; [|now apply B]. destruct sh as [s|]; [destruct (Nat.ltb_spec (comment_indent l) s)|]; destruct A as (s' & ? & ?); exists s'; split; auto; lia.
    + specialize (IH (S i) first sh lst). destruct (fold_left _ cs _) as [[[? ?] sh'] ?]. destruct IH as [A B]. split; [assumption|]. intros x [<-|Hx] Hn; [congruence|now apply B].
Qed.
Lemma multi_shifted m cs : Forall (right_of m) cs -> multi_comment (map (shifted m) cs) = multi_comment cs.
Proof.
  intro H. pose proof (scan_shifted m cs H 0 None None 0 I) as S. pose proof (shared_low cs 0 None None 0) as W. cbv zeta in S, W. unfold multi_comment, scan_comments. cbn [option_map] in S. cbv zeta.
  destruct (fold_left _ cs _) as [[[i first] sh] lst]. destruct S as [Sm ->]. destruct W as [_ W]. destruct first as [f|]; [|reflexivity]. do 2 f_equal.
  rewrite skipn_map, firstn_map, map_map. apply map_ext_in. intros l Hl. assert (In l cs) as Hin by (rewrite <- (firstn_skipn f cs); apply in_or_app; right; rewrite <- (firstn_skipn (lst + 1 - f)); apply in_or_app; left; exact Hl).
  change (l_text (shifted m l)) with (l_text l). destruct (l_text l) as [t|] eqn:E; [|reflexivity]. rewrite indent_shifted.
  destruct (W l Hin ltac:(rewrite E; discriminate)) as (s & -> & Hs). cbn [option_map].
  destruct (Nat.eqb_spec (comment_indent l) s), (Nat.eqb_spec (comment_indent l - m) (s - m)); try lia; [reflexivity|]. do 2 f_equal. lia.
Qed.
Lemma lev_shifted cs : exists m, lev cs = map (shifted m) cs /\ Forall (right_of m) cs.
Proof.
  unfold lev, level, plain. set (p := map (fun l => (comment_column l, l_text l)) cs). exists (match leftmost p with Some m => m | None => 0 end). split.
  - unfold p at 2. rewrite !map_map. apply map_ext. intro l. reflexivity.
  - assert (forall p c t, In (c, Some t) p -> exists m, leftmost p = Some m /\ m <= c) as K.
    { clear. induction p as [|[c [t|]] p IH]; intros c0 t0; cbn [In leftmost].
      - intros [].
      - intros [[= -> ->]|Hp]; [destruct (leftmost p); eexists; split; try reflexivity; lia|]. destruct (IH c0 t0 Hp) as (m & -> & ?). eexists. split; [reflexivity|lia].
      - intros [Hp|Hp]; [discriminate|]. now apply (IH c0 t0). }
    apply Forall_forall. intros l Hl Ht. destruct (l_text l) as [t|] eqn:E; [|congruence].
    destruct (K p (comment_column l) t) as (m & -> & Hm); [|exact Hm]. unfold p. apply in_map_iff. exists l. now rewrite E.
Qed.
Lemma multi_skin cs : multi_comment (lev cs) = multi_comment cs.
Proof. destruct (lev_shifted cs) as (m & -> & H). now apply multi_shifted. Qed.
Lemma lev_texts cs : map l_text (lev cs) = map l_text cs.
Proof. destruct (lev_shifted cs) as (m & -> & _). rewrite map_map. now apply map_ext. Qed.

Section Two.
  Context (d dd : text).
  Definition same (h h' : heap) : Prop := skins d h = skins dd h'.
  Definition twins (n n' : node) : Prop := skin d n = skin dd n'.
  Lemma same_get h h' e : same h h' -> twins (hget h e) (hget h' e).
  Proof. intro H. unfold twins. now rewrite <- !skins_get, H. Qed.
  Lemma same_length h h' : same h h' -> length h = length h'.
  Proof. intro H. rewrite <- (skins_length d h), <- (skins_length dd h'). now rewrite H. Qed.
  Lemma same_key h h' e : same h h' -> key_of h e = key_of h' e.
  Proof. intro H. unfold key_of. pose proof (f_equal n_key (same_get h h' e H)) as E. cbn in E. now rewrite E. Qed.
  Lemma same_upd h h' e f : (forall i n, skin i (f n) = f (skin i n)) -> same h h' -> same (hupd h e f) (hupd h' e f).
  Proof. intros Hf H. unfold same. rewrite (skins_upd d h e f f), (skins_upd dd h' e f f) by auto. now rewrite H. Qed.

  Definition agree {A} (m m' : hM A) : Prop := forall h h', same h h' -> same (fst (m h)) (fst (m' h')) /\ snd (m h) = snd (m' h').
  Lemma agree_ret {A} (a : A) : agree (ret a) (ret a).
  Proof. intros h h' H. now split. Qed.
  Lemma agree_raise {A} e : agree (raise e : hM A) (raise e).
  Proof. intros h h' H. now split. Qed.
  Lemma agree_lift {A} (r : res A) : agree (lift r) (lift r).
  Proof. intros h h' H. now split. Qed.
  Lemma agree_bind {A B} (m m' : hM A) (f f' : A -> hM B) : agree m m' -> (forall a, agree (f a) (f' a)) -> agree (mbind m f) (mbind m' f').
  Proof.
    intros Hm Hf h h' H. destruct (Hm h h' H) as [K E]. unfold mbind. destruct (m h) as [h1 r1], (m' h') as [h2 r2]. cbn in K, E. subst r2. destruct r1; [now apply Hf|now split].
  Qed.
  Lemma agree_node {A} e (f f' : node -> hM A) : (forall n n', twins n n' -> agree (f n) (f' n')) -> agree (mbind (hnode e) f) (mbind (hnode e) f').
  Proof. intros Hf h h' H. unfold mbind, hnode. apply Hf; [now apply same_get|assumption]. Qed.
  Lemma agree_get {A} (f f' : heap -> hM A) : (forall h h', same h h' -> agree (f h) (f' h')) -> agree (mbind get f) (mbind get f').
  Proof. intros Hf h h' H. unfold mbind, get. now apply Hf. Qed.
  Lemma agree_set e f : (forall i n, skin i (f n) = f (skin i n)) -> agree (hset e f) (hset e f).
  Proof. intros Hf h h' H. split; [|reflexivity]. now apply same_upd. Qed.
  Lemma agree_mapM {A B} (f f' : A -> hM B) l : (forall a, agree (f a) (f' a)) -> agree (mapM f l) (mapM f' l).
  Proof.
    intro H. induction l as [|a l IH]; cbn [mapM]; [apply agree_ret|]. apply agree_bind; [apply H|]. intro y. apply agree_bind; [exact IH|]. intro ys. apply agree_ret.
  Qed.

  Ltac twin H := pose proof (f_equal n_type H); pose proof (f_equal n_key H); pose proof (f_equal n_elements H); pose proof (f_equal n_items H);
    pose proof (f_equal n_entries H); pose proof (f_equal n_mirror H); pose proof (f_equal n_extend H); pose proof (f_equal n_cvalue H); pose proof (f_equal n_ccomment H);
    pose proof (f_equal n_cels H); pose proof (f_equal n_centries H); pose proof (f_equal n_citems H);
    cbn [skin n_type n_key n_elements n_items n_entries n_mirror n_extend n_cvalue n_ccomment n_cels n_centries n_citems] in *;
    repeat match goal with E : _ ?n = _ ?n' |- _ => rewrite <- E; clear E end.
  Ltac go := repeat match goal with
    | |- agree (ret _) _ => apply agree_ret
    | |- agree (raise _) _ => apply agree_raise
    | |- agree (lift _) _ => apply agree_lift
    | |- agree (hset _ _) _ => apply agree_set; reflexivity
    | H : forall e, agree (?f e) (?g e) |- agree (?f _) (?g _) => apply H
    | |- agree (mapM _ _) (mapM _ _) => apply agree_mapM; intro
    | |- agree (mbind (hnode _) _) _ => let n := fresh "n" in let n' := fresh "n'" in let H := fresh "T" in apply agree_node; intros n n' H; twin H
    | |- agree (mbind get _) _ => apply agree_get; intros ? ? ?
    | |- agree (mbind _ _) (mbind _ _) => apply agree_bind; [|intro]
    | |- agree (match ?x with _ => _ end) _ => destruct x
    end.

  Lemma filter_same h h' own l : same h h' -> filter (fun e => negb (has_key h own e)) l = filter (fun e => negb (has_key h' own e)) l.
  Proof.
    intro H. apply filter_ext. intro e. f_equal. unfold has_key. rewrite (same_key h h' e H). induction own as [|x own IH]; cbn; [reflexivity|]. now rewrite IH, (same_key h h' x H).
  Qed.
  Lemma agree_comment e : agree (comment e) (comment e).
  Proof.
    unfold comment. cbv zeta. apply agree_node. intros n n' H. pose proof (f_equal n_comments H) as Ec. pose proof (f_equal n_ccomment H) as Ev. cbn [skin n_comments n_ccomment] in Ec, Ev.
    rewrite <- Ev. destruct (n_ccomment n); [apply agree_ret|]. destruct (n_comments n) as [cs|], (n_comments n') as [cs'|]; try discriminate; [|go].
    injection Ec as Ec. pose proof (multi_skin cs) as M. rewrite Ec, multi_skin in M. pose proof (lev_texts cs) as X. rewrite Ec, lev_texts in X.
    destruct cs as [|x [|y cs]], cs' as [|x' [|y' cs']]; try discriminate; [go| |rewrite M; go].
    cbn [map] in X. injection X as Et. rewrite Et. go.
  Qed.
  Lemma agree_items f : forall e, agree (items f e) (items f e).
  Proof. induction f as [|f IH]; intro e; cbn [items]; cbv zeta; go. Qed.
  Lemma agree_entries f : forall e, agree (entries f e) (entries f e).
  Proof.
    induction f as [|f IH]; intro e; cbn [entries]; cbv zeta; go. 
    all: match goal with H : same ?h ?h' |- _ => rewrite (filter_same h h' _ _ H) end; go.
  Qed.
  Lemma agree_elements f : forall e, agree (elements f e) (elements f e).
  Proof.
    induction f as [|f IH]; intro e; cbn [elements]; cbv zeta; go.
    all: match goal with H : same ?h ?h' |- _ => rewrite (filter_same h h' _ _ H) end; go.
  Qed.
  Lemma agree_value f : forall e, agree (value d f e) (value dd f e).
  Proof.
    induction f as [|f IH]; intro e; cbn [value]; cbv zeta; [apply agree_raise|]. apply agree_node. intros n n' H. rewrite !own_value_skin, H. twin H. go.
  Qed.
  Lemma agree_raw f : forall e, agree (raw d f e) (raw dd f e).
  Proof.
    induction f as [|f IH]; intro e; cbn [raw]; cbv zeta; [apply agree_raise|]. apply agree_get. intros h h' Hh. rewrite <- (same_length h h' Hh).
    apply agree_node. intros n n' H. pose proof (f_equal n_comments H) as Ec. cbn [skin n_comments] in Ec. twin H. apply agree_bind.
    - destruct (n_comments n), (n_comments n'); try discriminate; go. apply agree_comment.
    - intro c. destruct (n_type n); go; first [apply agree_value|apply agree_items|apply agree_entries|apply agree_elements].
  Qed.
  Lemma agree_ask a : agree (do_ask d a) (do_ask dd a).
  Proof.
    unfold do_ask. cbv zeta. apply agree_get. intros h h' Hh. rewrite <- (same_length h h' Hh). destruct a; go;
      first [apply agree_comment|apply agree_value|apply agree_items|apply agree_entries|apply agree_elements|apply agree_raw].
  Qed.
  Lemma after_agree hist : forall h h', same h h' -> same (after d hist h) (after dd hist h').
  Proof. induction hist as [|a hist IH]; intros h h' H; cbn [after]; [assumption|]. apply IH. now apply agree_ask. Qed.
  Lemma answered_agree hist a h h' : same h h' -> answered d a (after d hist h) = answered dd a (after dd hist h').
  Proof. intro H. unfold answered. now apply (agree_ask a), after_agree. Qed.
End Two.
