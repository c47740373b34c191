(** Names set by [register]: they are told apart, and only two names meet a method of the library. *)
From Verif Require Import Base Types Reporter Errors Context Elements Register SpecRegister.
From Coq Require Import Lia.

Definition accessor_eqb (a b : accessor) : bool :=
  match a, b with
  | AKey, AKey => true
  | AComment p, AComment q | AValue p, AValue q | AValues p, AValues q => Bool.eqb p q
  | _, _ => false
  end.
Lemma accessor_eqb_eq a b : accessor_eqb a b = true <-> a = b.
Proof.
  destruct a as [|[]|[]|[]], b as [|[]|[]|[]]; cbn; split; intro H; try reflexivity; try discriminate.
Qed.
Lemma accessor_eqb_refl a : accessor_eqb a a = true.
Proof. now apply accessor_eqb_eq. Qed.
Lemma pyclass_eqb_eq a b : pyclass_eqb a b = true <-> a = b.
Proof. destruct a, b; cbn; split; intro H; try reflexivity; discriminate. Qed.
Lemma pyclass_eqb_refl a : pyclass_eqb a a = true.
Proof. now apply pyclass_eqb_eq. Qed.

Lemma attr_spelt a n : attr a n = spelt a n.
Proof. destruct a as [|[]|[]|[]]; reflexivity. Qed.
Lemma generic_plainly a : generic a = plainly a.
Proof. destruct a as [|[]|[]|[]]; reflexivity. Qed.

(** * Taking a name apart again *)
Definition cut_end (suf b : text) : option text :=
  let k := length b - length suf in
  if text_eqb (skipn k b) suf then Some (firstn k b) else None.
Definition cut_start (pre b : text) : option text :=
  if text_eqb (firstn (length pre) b) pre then Some (skipn (length pre) b) else None.
Definition unspell (a : accessor) (b : text) : option text :=
  match a with
  | AKey => cut_end (U"_key") b
  | AComment q => match cut_start (prefix_of q) b with Some b' => cut_end (U"_comment") b' | None => None end
  | AValue q => match cut_start (prefix_of q) b with Some b' => cut_end (U"_value") b' | None => None end
  | AValues q => match cut_start (prefix_of q) b with Some b' => cut_end (U"_values") b' | None => None end
  end.
Lemma cut_end_app n suf : cut_end suf (n ++ suf) = Some n.
Proof.
  unfold cut_end. rewrite app_length. replace (length n + length suf - length suf) with (length n) by lia.
  rewrite skipn_app, skipn_all, firstn_app, firstn_all, Nat.sub_diag. cbn [app skipn firstn]. rewrite text_eqb_refl. now rewrite app_nil_r.
Qed.
Lemma cut_start_app pre n : cut_start pre (pre ++ n) = Some n.
Proof.
  unfold cut_start. rewrite skipn_app, skipn_all, firstn_app, firstn_all, Nat.sub_diag. cbn [app skipn firstn].
  now rewrite app_nil_r, text_eqb_refl.
Qed.
Lemma unspell_attr a n : unspell a (attr a n) = Some n.
Proof. destruct a; cbn [unspell attr]; [apply cut_end_app|rewrite cut_start_app; apply cut_end_app..]. Qed.

Lemma attr_same a n m : attr a n = attr a m -> n = m.
Proof. intro H. pose proof (unspell_attr a n) as E. rewrite H, unspell_attr in E. congruence. Qed.

(** the last character tells the kind, the first one whether it is required *)
Definition last_of (b : text) : N := last b 0%N.
Lemma last_of_app a b : b <> [] -> last_of (a ++ b) = last_of b.
Proof. intro H. unfold last_of. induction a as [|x a IH]; [reflexivity|]. cbn [app]. rewrite <- IH. destruct (a ++ b) eqn:E; [|reflexivity]. apply app_eq_nil in E. now destruct E. Qed.
Definition ending (a : accessor) : N := match a with AKey => 121%N | AComment _ => 116%N | AValue _ => 101%N | AValues _ => 115%N end.
Lemma last_attr a n : last_of (attr a n) = ending a.
Proof. destruct a; cbn [attr]; rewrite ?app_assoc; rewrite last_of_app; [reflexivity|discriminate..| |discriminate| |discriminate| |discriminate]; reflexivity. Qed.
Lemma attr_apart a n b m : attr a n = attr b m -> a = b /\ n = m.
Proof.
  intro H. assert (a = b) as ->.
  { pose proof (last_attr a n) as E1. pose proof (last_attr b m) as E2. rewrite H, E2 in E1.
    destruct a as [|p|p|p], b as [|q|q|q]; cbn in E1; try discriminate; [reflexivity|..];
      cbn [attr] in H; destruct p, q; try reflexivity; cbn [prefix_of] in H; discriminate. }
  split; [reflexivity|]. now apply (attr_same b).
Qed.

(** * The methods of the library *)
Definition meets (c : pyclass) (b : text) (a : accessor) : bool :=
  match unspell a b with
  | None => true
  | Some n =>
      (text_eqb n (U"string") &&
         (pyclass_eqb c (owner a) || pyclass_eqb c (missing_owner a) ||
          (pyclass_eqb c PField && match a with AValue _ => true | _ => false end)))
      || (match n with [] => true | _ => false end && pyclass_eqb c PElementBase && accessor_eqb a AKey)
  end.
Lemma natives_meet : forallb (fun p => forallb (fun b => forallb (meets (fst p) b) accessors) (snd p)) natives = true.
Proof. vm_compute. reflexivity. Qed.
Lemma all_accessors a : In a accessors.
Proof. destruct a as [|[]|[]|[]]; cbn; tauto. Qed.

Section Values.
  Context {V : Type}.
  Notation initial := (@initial V).

  Lemma in_class_in (t : table V) c b m : in_class t c b = Some m -> In (c, b, m) t.
  Proof.
    induction t as [|((c', n'), m') t IH]; cbn [in_class]; [discriminate|].
    destruct (pyclass_eqb c c' && text_eqb b n') eqn:E; intro H.
    - apply andb_prop in E. destruct E as [E1 E2]. apply pyclass_eqb_eq in E1. apply text_eqb_eq in E2. injection H as ->. subst. now left.
    - right. now apply IH.
  Qed.
  Lemma initial_in c b m : in_class initial c b = Some m -> m = Native c b /\ exists l, In (c, l) natives /\ In b l.
  Proof.
    intro H. apply in_class_in in H. unfold Register.initial in H. apply in_flat_map in H. destruct H as ((c', l) & H1 & H2).
    cbn [fst snd] in H2. apply in_map_iff in H2. destruct H2 as (b' & E & H2). injection E as -> -> <-. split; [reflexivity|]. now exists l.
  Qed.
  Lemma initial_attr c a n : in_class initial c (attr a n) <> None ->
    (n = U"string" /\ (c = owner a \/ c = missing_owner a \/ (c = PField /\ exists q, a = AValue q))) \/
    (n = [] /\ c = PElementBase /\ a = AKey).
  Proof.
    destruct (in_class initial c (attr a n)) as [m|] eqn:E; [intros _|congruence].
    apply initial_in in E. destruct E as (_ & l & H1 & H2).
    pose proof natives_meet as K. rewrite forallb_forall in K. specialize (K _ H1). cbn [fst snd] in K.
    rewrite forallb_forall in K. specialize (K _ H2). rewrite forallb_forall in K. specialize (K a (all_accessors a)).
    unfold meets in K. rewrite unspell_attr in K. apply orb_prop in K. destruct K as [K|K].
    - left. apply andb_prop in K. destruct K as [K1 K2]. apply text_eqb_eq in K1. split; [assumption|].
      apply orb_prop in K2. destruct K2 as [K2|K2].
      + apply orb_prop in K2. destruct K2 as [K2|K2]; apply pyclass_eqb_eq in K2; auto.
      + apply andb_prop in K2. destruct K2 as [K2 K3]. apply pyclass_eqb_eq in K2. right. right. split; [assumption|].
        destruct a as [|?|q|?]; try discriminate. now exists q.
    - right. apply andb_prop in K. destruct K as [K K3]. apply andb_prop in K. destruct K as [K1 K2].
      apply pyclass_eqb_eq in K2. apply accessor_eqb_eq in K3. destruct n; [auto|discriminate].
  Qed.
End Values.
