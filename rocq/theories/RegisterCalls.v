(** Calls of registered accessors. *)
From Verif Require Import Base Types Messages Resolver Reporter Errors Context Elements SpecTree SpecRead SpecApi SpecQuery SpecLoad ApiDoc ApiInv ApiState ApiOps Session SessionInv SessionRun QueryProofs LoadProofs PropQueryProofs Register SpecRegister RegisterNames RegisterTable.
From Coq Require Import Lia.

Lemma mbind_ret {S A B C} (m : M S A) (f : A -> B) (g : B -> M S C) s :
  mbind (mbind m (fun x => ret (f x))) g s = mbind m (fun x => g (f x)) s.
Proof. unfold mbind, ret. destruct (m s) as [s1 [a|e]]; reflexivity. Qed.

Lemma mapM_same {S A B} (f g : A -> M S B) x l s : f x s = g x s -> (forall v s1, g x s = (s1, Ok v) -> mapM f l s1 = mapM g l s1) ->
  mapM f (x :: l) s = mapM g (x :: l) s.
Proof.
  intros H1 H2. cbn [mapM]. unfold mbind. rewrite H1. destruct (g x s) as [s1 [v|e]] eqn:E; [|reflexivity]. now rewrite (H2 v s1 eq_refl).
Qed.
Lemma bind_same {S A B C} (m : M S (list A)) (f g : A -> M S B) (k : list B -> M S C) s s1 ys : m s = (s1, Ok ys) -> mapM f ys s1 = mapM g ys s1 ->
  mbind m (fun l => mbind (mapM f l) k) s = mbind (mbind m (fun l => mapM g l)) k s.
Proof. intros H1 H2. unfold mbind. rewrite H1, H2. reflexivity. Qed.
Lemma missing_bind {A B} (k : A -> sM B) : forall m s, mbind (missing_error m) k s = missing_error m s.
Proof.
  fix IH 1. intros [q key [o|m]] s; cbn [missing_error]; [clear IH|apply IH]. unfold mbind, the_obj.
  destruct (o_class (oget s o)); try reflexivity. unfold fail, mbind, the_ctx. destruct (v_missing_element _ _ _ _); reflexivity.
Qed.

Section Values.
  Context {V : Type} (str : text -> V).
  Notation call := (call_method str).

  Lemma call_using fuel t o a f n s : getattr t (obj_class (o_class (oget s o))) n = Some (Using a f) ->
    call (S fuel) t (TObj o) n None s = call fuel t (TObj o) (generic a) (Some f) s.
  Proof. intro H. cbn [call_method]. unfold mbind at 1, target_class, mbind at 1, the_obj, ret. cbn [fst snd]. now rewrite H. Qed.

  Lemma index_generic a : index_of (generic a) generic = Some a.
  Proof. destruct a as [|[]|[]|[]]; vm_compute; reflexivity. Qed.
  Lemma index_string a : index_of (attr a (U"string")) (fun a => attr a (U"string")) = Some a.
  Proof. destruct a as [|[]|[]|[]]; vm_compute; reflexivity. Qed.
  Lemma generic_key a : text_eqb (generic a) (U"_key") = false.
  Proof. destruct a as [|[]|[]|[]]; vm_compute; reflexivity. Qed.

  Section Registered.
    Context calls (t : table V) (E : registers calls = Ok t).

    Lemma call_key fuel o f s : ~ In [] (map fst (given calls)) -> call (S fuel) t (TObj o) (generic AKey) (Some f) s = with_loader AKey o f s.
    Proof.
      intro Hn. destruct (get_generic calls t E AKey (o_class (oget s o)) I) as (c' & Hg).
      cbn [call_method]. unfold mbind at 1, target_class, mbind at 1, the_obj, ret. cbn [fst snd]. rewrite Hg, generic_key, index_generic.
      rewrite (get_own_key calls t E (o_class (oget s o)) Hn).
      cbn [with_loader]. unfold key_with, one, mbind, touch_obj, oset, ret, the_obj. cbn [fst snd].
      destruct (plain_key o (upd_obj o with_touched s)) as [s1 [k|e]]; reflexivity.
    Qed.
    Lemma call_comment fuel o f q s : call (S fuel) t (TObj o) (generic (AComment q)) (Some f) s = with_loader (AComment q) o f s.
    Proof.
      destruct (get_generic calls t E (AComment q) (o_class (oget s o)) I) as (c' & Hg).
      cbn [call_method]. unfold mbind at 1, target_class, mbind at 1, the_obj, ret. cbn [fst snd]. rewrite Hg, generic_key, index_generic. reflexivity.
    Qed.
    Lemma call_value fuel o f q s : has (AValue q) (o_class (oget s o)) -> call (S fuel) t (TObj o) (generic (AValue q)) (Some f) s = with_loader (AValue q) o f s.
    Proof.
      intro HH. destruct (get_generic calls t E (AValue q) (o_class (oget s o)) HH) as (c' & Hg).
      cbn [call_method]. unfold mbind at 1, target_class, mbind at 1, the_obj, ret. cbn [fst snd]. rewrite Hg, generic_key, index_generic. reflexivity.
    Qed.

    Section Parsed.
      Context {inp : text} {loc : locale} {rk : reporter_kind} {src : option text} {c : ctx} (HP : parse_context inp loc rk src = Ok c).
      Let HD : Doc (c_heap c) := doc_of_parse inp loc rk src c HP.

      Lemma items_in_turn fuel f q ys : forall s, Inv c s -> Forall (fun y => valid s y CItem) ys ->
        mapM (fun i => let! r := call (S fuel) t (TObj i) (generic (AValue q)) (Some f) in match r with One v => ret v | _ => raise TypeError end) ys s =
        mapM (fun i => value_of i f q) ys s.
      Proof.
        induction ys as [|y ys IH]; intros s HI HY; [reflexivity|]. inversion HY as [|? ? [Hy1 Hy2] Hys]; subst.
        apply mapM_same.
        - unfold mbind at 1. rewrite call_value by (cbn [has]; auto). cbn [with_loader]. unfold mbind. destruct (value_of y f q s) as [s1 [v|x]]; reflexivity.
        - intros v s1 Ev. pose proof (ok_value c y f q s HI) as [K1 K2]. rewrite Ev in K1, K2. cbn [fst] in *. apply IH; [assumption|].
          eapply Forall_impl; [|exact Hys]. intros z Hz. exact (valid_ext _ _ _ _ K2 Hz).
      Qed.
      Lemma call_values fuel o e f q s : Session.reach c s -> names s o CList e ->
        call (S (S fuel)) t (TObj o) (generic (AValues q)) (Some f) s = with_loader (AValues q) o f s.
      Proof.
        intros Hs HN. pose proof (inv_reach c HD s Hs) as HI. pose proof HN as (N1 & N2 & N3).
        destruct (get_generic calls t E (AValues q) (o_class (oget s o))) as (c' & Hg); [now cbn [has]|].
        remember (S fuel) as fuel1 eqn:Ef. cbn [call_method]. unfold mbind at 1, target_class, mbind at 1, the_obj, ret at 1. cbn [fst snd]. rewrite Hg, generic_key, index_generic.
        cbn [with_loader]. unfold list_values.
        destruct (ok_items c HD o s HI (conj N1 N2)) as [K1 K2].
        assert (HL : exists L, item_list (c_heap c) e L).
        { destruct (proj2 (proj2 (one_list HP e))) as (_ & L & HL & _); [|now exists L].
          subst e. pose proof (oo_class c s o _ (iv_obj c s HI o N1)) as Ht. rewrite N2 in Ht. cbn [class_fits] in Ht. intro Hx. rewrite Hx in Ht. discriminate. }
        destruct HL as (L & HL). destruct (items_answer c HD o e s L HI HN HL) as (ys & Ey & HY).
        destruct (list_items o s) as [s1 w] eqn:El. cbn [fst snd] in *. subst w. subst fuel1.
        eapply bind_same; [exact El|]. apply items_in_turn; [assumption|].
        clear - HY. induction HY as [|y x ys L (A1 & A2 & _) _ IH]; constructor; [now split|assumption].
      Qed.
      Lemma call_generic fuel a o cl e f s : Session.reach c s -> names s o cl e -> has a cl -> (a = AKey -> ~ In [] (map fst (given calls))) ->
        call (S (S fuel)) t (TObj o) (generic a) (Some f) s = with_loader a o f s.
      Proof.
        intros Hs HN HH Hk. pose proof HN as (N1 & N2 & N3). destruct a as [|q|q|q].
        - apply call_key. now apply Hk.
        - apply call_comment.
        - apply call_value. now rewrite N2.
        - cbn [has] in HH. subst cl. now apply call_values with (e := e).
      Qed.

      Lemma registered_call fuel a o cl e n f s : Session.reach c s -> names s o cl e -> has a cl -> defined n f (given calls) ->
        ~ (n = U"string" /\ cl = CField /\ exists q, a = AValue q) -> ~ (a = AKey /\ In [] (map fst (given calls))) -> 3 <= fuel ->
        call fuel t (TObj o) (spelt a n) None s = with_loader a o f s.
      Proof.
        intros Hs HN HH HF Hst Hk Hfuel. destruct fuel as [|[|[|fuel]]]; try lia. rewrite <- attr_spelt.
        rewrite (call_using (S (S fuel)) t o a f); [apply call_generic with (cl := cl) (e := e); auto|].
        destruct HN as (_ & -> & _). apply (get_own calls t E n f a cl HF HH). intros H1 H2 q H3. apply Hst. subst. repeat split. now exists q.
      Qed.
      Lemma plain_call fuel a o cl e f s : Session.reach c s -> names s o cl e -> has a cl -> ~ (a = AKey /\ In [] (map fst (given calls))) -> 2 <= fuel ->
        call fuel t (TObj o) (plainly a) (Some f) s = with_loader a o f s.
      Proof.
        intros Hs HN HH Hk Hfuel. destruct fuel as [|[|fuel]]; try lia. rewrite <- generic_plainly. apply call_generic with (cl := cl) (e := e); auto.
      Qed.
    End Parsed.

    Lemma missing_call fuel a k key p n s : missing_has a k -> In n (map fst (given calls)) -> ~ (a = AKey /\ n = []) -> 1 <= fuel ->
      call fuel t (TMissing (Missing k key p)) (spelt a n) None s = of_missing a (Missing k key p) s.
    Proof.
      intros HH Hn Hk Hfuel. destruct fuel as [|fuel]; [lia|]. rewrite <- attr_spelt. cbn [call_method]. unfold mbind at 1, target_class, ret at 1. cbn [fst snd].
      assert (Q : text_eqb (attr a n) (U"_key") = false).
      { apply text_eqb_neq. intro Q. apply Hk. pose proof (unspell_attr a n) as R. rewrite Q in R. destruct a as [|[]|[]|[]]; vm_compute in R; try discriminate. injection R as <-. now split. }
      rewrite Q, (get_missing calls t E n a k Hn HH), index_string.
      destruct a as [|[]|[]|[]]; cbn [missing_native of_missing]; try reflexivity; unfold mbind, missing_comment, missing_value.
      all: apply missing_bind.
    Qed.
  End Registered.
End Values.
