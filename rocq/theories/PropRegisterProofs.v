(** PropRegisterProofs: the statements of PropRegister. *)
From Verif Require Import Base Types Messages Reporter Errors Context Elements SpecQuery Session SessionRun QueryExamples Register SpecRegister RegisterNames RegisterTable RegisterCalls RegisterExamples.
From Coq Require Import Lia.

Lemma string_wrong : exists calls (t : table text) n f inp s o e,
  registers calls = Ok t /\ defined n f (given calls) /\ reach (ctx_of inp) s /\ names s o CField e /\
  forall fuel, 3 <= fuel -> snd (call_method ident fuel t (TObj o) (spelt (AValue false) n) None s) <> snd (with_loader (AValue false) o f s).
Proof.
  destruct string_field as (H1 & H2 & H3 & H4). exists string_calls, (table_of string_calls), (U"string"), (mark "<"), f_doc, (session f_doc f_calls), 2, 1.
  split; [exact H1|]. split; [exact H2|]. split; [exact f_reach|]. split; [exact f_names|]. intros fuel Hf.
  change (spelt (AValue false) (U"string")) with (U"optional_string_value"). rewrite (H3 fuel Hf), H4. intro E. injection E as E. discriminate.
Qed.
Lemma empty_wrong : exists calls (t : table text) f inp s o e,
  registers calls = Ok t /\ defined [] f (given calls) /\ reach (ctx_of inp) s /\ names s o CField e /\
  (forall fuel, snd (call_method ident fuel t (TObj o) (spelt AKey []) None s) = Raise Fuel) /\
  (forall fuel, snd (call_method ident fuel t (TObj o) (plainly AKey) (Some f) s) = Raise Fuel) /\
  (forall fuel, snd (call_method ident fuel t (TObj o) (U"string_key") None s) = Raise Fuel) /\
  snd (with_loader AKey o f s) = Ok (One (Some (U"<a"))).
Proof.
  destruct empty_key as (H1 & H2 & H3 & H4). exists empty_calls, (table_of empty_calls), (mark "<"), f_doc, (session f_doc f_calls), 2, 1.
  split; [exact H1|]. split; [exact H2|]. split; [exact f_reach|]. split; [exact f_names|]. split; [|split; [|split]].
  - intros [|fuel]; [reflexivity|]. rewrite <- attr_spelt.
    rewrite (call_using ident fuel _ 2 AKey (mark "<")); [|apply (get_own empty_calls _ H1 [] (mark "<") AKey _ H2 I); discriminate].
    exact (key_for_ever ident empty_calls _ (mark "<") H1 H2 fuel 2 (mark "<") _).
  - intro fuel. exact (key_for_ever ident empty_calls _ (mark "<") H1 H2 fuel 2 (mark "<") _).
  - intro fuel. exact (string_key_for_ever ident empty_calls _ (mark "<") H1 H2 H3 fuel 2 _).
  - exact H4.
Qed.

Section Values.
  Context {V : Type}.
  Lemma registers_ok (calls : list (list (definition V) * list (text * loader V))) : exists t, registers calls = Ok t.
  Proof. destruct (registers_spec calls) as (t & E & _). now exists t. Qed.

  Section Parsed.
    Context {inp : text} {loc : locale} {rk : reporter_kind} {src : option text} {c : ctx} (HP : parse_context inp loc rk src = Ok c) (str : text -> V).
    Lemma accessors_call calls t s o cl e a n f fuel : registers calls = Ok t -> reach c s -> names s o cl e -> has a cl -> defined n f (given calls) ->
      ~ (n = U"string" /\ cl = CField /\ exists q, a = AValue q) -> ~ (a = AKey /\ In [] (map fst (given calls))) -> 3 <= fuel ->
      call_method str fuel t (TObj o) (spelt a n) None s = with_loader a o f s.
    Proof. intros E Hs HN HH HF. exact (registered_call str calls t E HP fuel a o cl e n f s Hs HN HH HF). Qed.
    Lemma accessors_plain calls t s o cl e a f fuel : registers calls = Ok t -> reach c s -> names s o cl e -> has a cl ->
      ~ (a = AKey /\ In [] (map fst (given calls))) -> 3 <= fuel ->
      call_method str fuel t (TObj o) (plainly a) (Some f) s = with_loader a o f s.
    Proof. intros E Hs HN HH Hk Hf. apply (plain_call str calls t E HP fuel a o cl e f s Hs HN HH Hk). lia. Qed.
  End Parsed.
  Lemma missing_accessors (str : text -> V) calls t s a k key p n fuel : registers calls = Ok t -> missing_has a k ->
    In n (map fst (given calls)) -> ~ (a = AKey /\ n = []) -> 1 <= fuel ->
    call_method str fuel t (TMissing (Missing k key p)) (spelt a n) None s = of_missing a (Missing k key p) s.
  Proof. intros E. exact (missing_call str calls t E fuel a k key p n s). Qed.
  Lemma no_accessor calls (t : table V) a n : registers calls = Ok t -> n <> U"string" -> n <> [] ->
    (forall cl, ~ has a cl -> getattr t (obj_class cl) (spelt a n) = None) /\
    (forall k, ~ missing_has a k -> getattr t (missing_class k) (spelt a n) = None).
  Proof.
    intros E H1 H2. rewrite <- attr_spelt. split; [intros cl H; exact (get_none calls t E n a cl H H1 H2)|intros k H; exact (get_missing_none calls t E n a k H H1 H2)].
  Qed.
  Lemma others_stay calls (t : table V) b : registers calls = Ok t -> (forall a n, In n (map fst (given calls)) -> b <> spelt a n) ->
    forall cl, getattr t cl b = getattr initial cl b.
  Proof. intros E H. apply (table_away calls t E). intros a n Hn. rewrite attr_spelt. exact (H a n Hn). Qed.
  Lemma only_two cl a n : getattr (@initial V) cl (spelt a n) <> None -> n = U"string" \/ n = [].
  Proof.
    rewrite <- attr_spelt. unfold getattr. induction (mro cl) as [|x l IH]; cbn [lookup_in]; [congruence|].
    destruct (in_class initial x (attr a n)) as [m|] eqn:E; [|exact IH]. intros _.
    destruct (initial_attr (V := V) x a n) as [[H _]|[H _]]; [rewrite E; discriminate|now left|now right].
  Qed.
End Values.
Lemma spelt_apart a n b m : spelt a n = spelt b m -> a = b /\ n = m.
Proof. rewrite <- !attr_spelt. apply attr_apart. Qed.

Lemma r_case : parse_context m_doc en TextReporter None = Ok (ctx_of m_doc) /\ registers r_calls = Ok (table_of r_calls) /\
  reach (ctx_of m_doc) (session m_doc m_calls) /\ names (session m_doc m_calls) 4 CList 5 /\ has (AValues false) CList /\
  defined (U"strict") (mark "+") (given r_calls) /\ defined (U"mark") (mark "!") (given r_calls) /\ ~ In [] (map fst (given r_calls)) /\
  snd (call_method ident 3 (table_of r_calls) (TObj 4) (U"optional_mark_values") None (session m_doc m_calls)) = Ok (Many [Some (U"!1"); None; Some (U"!3"); Some (U"!4")]) /\
  snd (call_method ident 3 (table_of r_calls) (TObj 4) (U"strict_key") None (session m_doc m_calls)) = Ok (One (Some (U"+m"))).
Proof.
  split; [exact m_parsed|]. split; [exact r_registers|]. split; [exact m_reach|]. split; [exact (proj1 m_names)|]. split; [reflexivity|].
  split; [exact (proj1 (proj2 r_defined))|]. split; [exact (proj2 (proj2 r_defined))|].
  split; [cbn; intro H; repeat (destruct H as [H|H]; [discriminate|]); destruct H|].
  split; [exact (proj1 r_answers)|exact (proj1 (proj2 r_answers))].
Qed.
