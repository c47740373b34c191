(** Concrete registrations for PropRegister, and the two names that go wrong. *)
From Verif Require Import Base Types Messages Reporter Errors Context Elements SpecTree SpecRead SpecApi SpecQuery SpecLoad Session SessionRun QueryExamples Register SpecRegister RegisterNames RegisterTable RegisterCalls.
From Coq Require Import Lia.

Section Values.
  Context {V : Type} (str : text -> V).
  (** with the name "" defined, keys can not be read any more *)
  Lemma key_for_ever calls (t : table V) g : registers calls = Ok t -> defined [] g (given calls) ->
    forall fuel o f s, snd (call_method str fuel t (TObj o) (U"key") (Some f) s) = Raise Fuel.
  Proof.
    intros E HD. induction fuel as [|fuel IH]; intros o f s; [reflexivity|].
    destruct (get_generic calls t E AKey (o_class (oget s o)) I) as (c' & Hg).
    pose proof (get_own calls t E [] g AKey (o_class (oget s o)) HD I) as Hk.
    change (attr AKey []) with (U"_key") in Hk. specialize (Hk ltac:(discriminate)).
    change (U"key") with (generic AKey). cbn [call_method]. unfold mbind at 1, target_class, mbind at 1, the_obj, ret at 1. cbn [fst snd]. rewrite Hg, generic_key, index_generic, Hk.
    unfold mbind at 1, touch_obj, oset. unfold mbind at 1. unfold mbind at 1. unfold mbind at 1.
    change (generic AKey) with (U"key"). specialize (IH o g (upd_obj o with_touched s)). destruct (call_method str fuel t (TObj o) (U"key") (Some g) (upd_obj o with_touched s)) as [s1 v]. cbn [snd] in IH. subst v. reflexivity.
  Qed.
  Lemma string_key_for_ever calls (t : table V) g : registers calls = Ok t -> defined [] g (given calls) -> ~ In (U"string") (map fst (given calls)) ->
    forall fuel o s, snd (call_method str fuel t (TObj o) (U"string_key") None s) = Raise Fuel.
  Proof.
    intros E HD Hn [|fuel] o s; [reflexivity|].
    pose proof (get_own calls t E [] g AKey (o_class (oget s o)) HD I) as Hk.
    change (attr AKey []) with (U"_key") in Hk. specialize (Hk ltac:(discriminate)).
    assert (Hg : getattr t (obj_class (o_class (oget s o))) (U"string_key") = Some (Native PElementBase (U"string_key"))).
    { rewrite (table_away calls t E (U"string_key")).
      - destruct (o_class (oget s o)); vm_compute; reflexivity.
      - intros a n H Hb. pose proof (unspell_attr a n) as Q. rewrite <- Hb in Q. destruct a as [|[]|[]|[]]; vm_compute in Q; try discriminate. injection Q as <-. contradiction. }
    cbn [call_method]. unfold mbind at 1, target_class, mbind at 1, the_obj, ret at 1. cbn [fst snd]. rewrite Hg, Hk.
    change (U"string_key") with (attr AKey (U"string")). rewrite index_string.
    replace (text_eqb (attr AKey (U"string")) (U"_key")) with false by (vm_compute; reflexivity).
    replace (index_of (attr AKey (U"string")) generic) with (@None accessor) by (vm_compute; reflexivity).
    unfold mbind at 1, touch_obj, oset. unfold mbind at 1. unfold mbind at 1.
    pose proof (key_for_ever calls t g E HD fuel o g (upd_obj o with_touched s)) as K.
    change (generic AKey) with (U"key"). destruct (call_method str fuel t (TObj o) (U"key") (Some g) (upd_obj o with_touched s)) as [s1 v]. cbn [snd] in K. subst v. reflexivity.
  Qed.
End Values.

(** values are texts; loaders put a character in front, or reject *)
Definition ident (t : text) : text := t.
Definition mark (x : string) : loader text := fun t => LOk (U x ++ t).
Definition reject : loader text := fun t => LValueError (U"no").
Definition r_calls : list (list (definition text) * list (text * loader text)) :=
  [([Callable (U"plain") (mark "<"); Dict [(U"strict", reject); (U"mark", mark "#")]], [(U"mark", mark "!")]);
   ([], [(U"strict", mark "+")])].
Definition table_of (calls : list (list (definition text) * list (text * loader text))) : table text :=
  match registers calls with Ok t => t | Raise _ => [] end.
Lemma r_registers : registers r_calls = Ok (table_of r_calls).
Proof.
  destruct (registers_spec r_calls) as (t & E & _). unfold table_of. now rewrite E.
Qed.
Lemma r_defined : defined (U"plain") (mark "<") (given r_calls) /\ defined (U"strict") (mark "+") (given r_calls) /\ defined (U"mark") (mark "!") (given r_calls).
Proof.
  split; [|split].
  - exists [], [(U"strict", reject); (U"mark", mark "#"); (U"mark", mark "!"); (U"strict", mark "+")]. split; [reflexivity|]. cbn [map fst]. intro H. repeat (destruct H as [H|H]; [vm_compute in H; discriminate|]). destruct H.
  - exists [(U"plain", mark "<"); (U"strict", reject); (U"mark", mark "#"); (U"mark", mark "!")], []. split; [reflexivity|]. intros [].
  - exists [(U"plain", mark "<"); (U"strict", reject); (U"mark", mark "#")], [(U"strict", mark "+")]. split; [reflexivity|]. cbn [map fst]. intro H. repeat (destruct H as [H|H]; [vm_compute in H; discriminate|]). destruct H.
Qed.
(** the list m of [m_doc] (object 4) and its copied items; a missing field *)
Lemma r_answers : let t := table_of r_calls in let s := session m_doc m_calls in
  snd (call_method ident 3 t (TObj 4) (U"optional_mark_values") None s) = Ok (Many [Some (U"!1"); None; Some (U"!3"); Some (U"!4")]) /\
  snd (call_method ident 3 t (TObj 4) (U"strict_key") None s) = Ok (One (Some (U"+m"))) /\
  snd (call_method ident 3 t (TObj 4) (U"optional_plain_value") None s) = Raise AttributeError /\
  snd (call_method ident 3 t (TObj 4) (U"length") None s) = Ok (Elsewhere PList (U"length")) /\
  snd (call_method ident 3 t (TMissing (Missing MKField (key_named "x") (PObject 0))) (U"optional_mark_value") None s) = Ok (One None) /\
  is_validation (snd (call_method ident 3 t (TMissing (Missing MKField (key_named "x") (PObject 0))) (U"required_mark_value") None s)) = true.
Proof. cbv zeta. repeat (split; [vm_compute; reflexivity|]). vm_compute. reflexivity. Qed.

(** the name "string" does not reach the values of fields *)
Definition f_doc : text := U "a: 1".
Definition f_calls : list Session.call := [Query (Some KField) 0 (key_named "a") None].
Definition string_calls : list (list (definition text) * list (text * loader text)) := [([], [(U"string", mark "<")])].
Definition empty_calls : list (list (definition text) * list (text * loader text)) := [([Dict [([], mark "<")]], [])].
Lemma f_parsed : parse_context f_doc en TextReporter None = Ok (ctx_of f_doc). Proof. vm_compute. reflexivity. Qed.
Lemma f_reach : Session.reach (ctx_of f_doc) (session f_doc f_calls). Proof. apply session_reach. vm_compute. reflexivity. Qed.
Lemma f_names : names (session f_doc f_calls) 2 CField 1.
Proof. split; [apply Nat.ltb_lt; vm_compute; reflexivity|]. split; vm_compute; reflexivity. Qed.
Lemma string_field : registers string_calls = Ok (table_of string_calls) /\ defined (U"string") (mark "<") (given string_calls) /\
  (forall fuel, 3 <= fuel -> snd (call_method ident fuel (table_of string_calls) (TObj 2) (U"optional_string_value") None (session f_doc f_calls)) = Ok (One (Some (U"1")))) /\
  snd (with_loader (AValue false) 2 (mark "<") (session f_doc f_calls)) = Ok (One (Some (U"<1"))).
Proof.
  split; [destruct (registers_spec string_calls) as (t & E & _); unfold table_of; now rewrite E|].
  split; [exists [], []; split; [reflexivity|intros []]|].
  split; [|vm_compute; reflexivity].
  intros fuel H. destruct fuel as [|fuel]; [lia|]. vm_compute. reflexivity.
Qed.
Lemma empty_key : registers empty_calls = Ok (table_of empty_calls) /\ defined [] (mark "<") (given empty_calls) /\ ~ In (U"string") (map fst (given empty_calls)) /\
  snd (with_loader AKey 2 (mark "<") (session f_doc f_calls)) = Ok (One (Some (U"<a"))).
Proof.
  split; [destruct (registers_spec empty_calls) as (t & E & _); unfold table_of; now rewrite E|].
  split; [exists [], []; split; [reflexivity|intros []]|].
  split; [cbn; intros [H|[]]; discriminate|]. vm_compute. reflexivity.
Qed.
