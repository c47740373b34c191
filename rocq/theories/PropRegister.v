(** PropRegister: registered loaders (C46).

    The full statement: after any calls of [register], the accessors of a defined name behave like
    the accessor with the loader, on missing elements like the accessors for texts, and no other
    name is affected.  It fails for two names, "string" and the empty one; the [_partial] theorems
    hold for all others, and for these two where they do not meet a method of the library. *)
From Verif Require Import Base Types Messages Reporter Errors Context Elements SpecQuery Session SessionRun QueryExamples Register SpecRegister RegisterNames RegisterTable RegisterCalls RegisterExamples PropRegisterProofs.

Theorem C46_string_refuted : exists calls (t : table text) n f inp s o e,
  registers calls = Ok t /\ defined n f (given calls) /\ reach (ctx_of inp) s /\ names s o CField e /\
  forall fuel, 3 <= fuel -> snd (call_method ident fuel t (TObj o) (spelt (AValue false) n) None s) <> snd (with_loader (AValue false) o f s).
Proof. exact string_wrong. Qed.
Print Assumptions C46_string_refuted.

(** The empty name is defined as [_key], which every key is read with. *)
Theorem C46_empty_refuted : exists calls (t : table text) f inp s o e,
  registers calls = Ok t /\ defined [] f (given calls) /\ reach (ctx_of inp) s /\ names s o CField e /\
  (forall fuel, snd (call_method ident fuel t (TObj o) (spelt AKey []) None s) = Raise Fuel) /\
  (forall fuel, snd (call_method ident fuel t (TObj o) (plainly AKey) (Some f) s) = Raise Fuel) /\
  (forall fuel, snd (call_method ident fuel t (TObj o) (U"string_key") None s) = Raise Fuel) /\
  snd (with_loader AKey o f s) = Ok (One (Some (U"<a"))).
Proof. exact empty_wrong. Qed.
Print Assumptions C46_empty_refuted.

Theorem C46_registers : forall V (calls : list (list (definition V) * list (text * loader V))), exists t, registers calls = Ok t.
Proof. exact @registers_ok. Qed.
Print Assumptions C46_registers.

(** elements: the accessor of a defined name is the accessor with the loader, which itself stays *)
Theorem C46_accessors_partial : forall inp loc rk src c, parse_context inp loc rk src = Ok c ->
  forall V (str : text -> V) calls t s o cl e a n f fuel, registers calls = Ok t -> reach c s -> names s o cl e -> has a cl -> defined n f (given calls) ->
  ~ (n = U"string" /\ cl = CField /\ exists q, a = AValue q) -> ~ (a = AKey /\ In [] (map fst (given calls))) -> 3 <= fuel ->
  call_method str fuel t (TObj o) (spelt a n) None s = with_loader a o f s.
Proof. intros inp loc rk src c H V str. exact (accessors_call H str). Qed.
Print Assumptions C46_accessors_partial.

Theorem C46_plain_partial : forall inp loc rk src c, parse_context inp loc rk src = Ok c ->
  forall V (str : text -> V) calls t s o cl e a f fuel, registers calls = Ok t -> reach c s -> names s o cl e -> has a cl ->
  ~ (a = AKey /\ In [] (map fst (given calls))) -> 3 <= fuel ->
  call_method str fuel t (TObj o) (plainly a) (Some f) s = with_loader a o f s.
Proof. intros inp loc rk src c H V str. exact (accessors_plain H str). Qed.
Print Assumptions C46_plain_partial.

(** missing elements *)
Theorem C46_missing_partial : forall V (str : text -> V) calls t s a k key p n fuel, registers calls = Ok t -> missing_has a k ->
  In n (map fst (given calls)) -> ~ (a = AKey /\ n = []) -> 1 <= fuel ->
  call_method str fuel t (TMissing (Missing k key p)) (spelt a n) None s = of_missing a (Missing k key p) s.
Proof. exact @missing_accessors. Qed.
Print Assumptions C46_missing_partial.

(** elements of the other kinds do not get the accessor *)
Theorem C46_no_accessor_partial : forall V calls (t : table V) a n, registers calls = Ok t -> n <> U"string" -> n <> [] ->
  (forall cl, ~ has a cl -> getattr t (obj_class cl) (spelt a n) = None) /\
  (forall k, ~ missing_has a k -> getattr t (missing_class k) (spelt a n) = None).
Proof. exact @no_accessor. Qed.
Print Assumptions C46_no_accessor_partial.

(** no other attribute is affected, and different accessors or names have different attributes *)
Theorem C46_others : forall V calls (t : table V) b, registers calls = Ok t -> (forall a n, In n (map fst (given calls)) -> b <> spelt a n) ->
  forall cl, getattr t cl b = getattr initial cl b.
Proof. exact @others_stay. Qed.
Print Assumptions C46_others.

Theorem C46_apart : forall a n b m, spelt a n = spelt b m -> a = b /\ n = m.
Proof. exact spelt_apart. Qed.
Print Assumptions C46_apart.

(** no name but these two meets a method of the library *)
Theorem C46_only_two : forall V cl a n, getattr (@initial V) cl (spelt a n) <> None -> n = U"string" \/ n = [].
Proof. exact @only_two. Qed.
Print Assumptions C46_only_two.

(** The hypotheses are met. *)
Example c46_case : parse_context m_doc en TextReporter None = Ok (ctx_of m_doc) /\ registers r_calls = Ok (table_of r_calls) /\
  reach (ctx_of m_doc) (session m_doc m_calls) /\ names (session m_doc m_calls) 4 CList 5 /\ has (AValues false) CList /\
  defined (U"strict") (mark "+") (given r_calls) /\ defined (U"mark") (mark "!") (given r_calls) /\ ~ In [] (map fst (given r_calls)) /\
  snd (call_method ident 3 (table_of r_calls) (TObj 4) (U"optional_mark_values") None (session m_doc m_calls)) = Ok (Many [Some (U"!1"); None; Some (U"!3"); Some (U"!4")]) /\
  snd (call_method ident 3 (table_of r_calls) (TObj 4) (U"strict_key") None (session m_doc m_calls)) = Ok (One (Some (U"+m"))).
Proof. exact r_case. Qed.
