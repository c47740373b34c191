(** What [register] is meant to do: C46.

    The names it defines are written out; the meaning of the accessors is that of [Elements]. *)
From Verif Require Import Base Types Reporter Errors Context Elements Register.

(** the attribute of a registered name *)
Definition spelt (a : accessor) (n : text) : text :=
  match a with
  | AKey => n ++ U"_key"
  | AComment false => U"optional_" ++ n ++ U"_comment"
  | AComment true => U"required_" ++ n ++ U"_comment"
  | AValue false => U"optional_" ++ n ++ U"_value"
  | AValue true => U"required_" ++ n ++ U"_value"
  | AValues false => U"optional_" ++ n ++ U"_values"
  | AValues true => U"required_" ++ n ++ U"_values"
  end.
(** the accessor with a loader *)
Definition plainly (a : accessor) : text :=
  match a with
  | AKey => U"key"
  | AComment false => U"optional_comment"
  | AComment true => U"required_comment"
  | AValue false => U"optional_value"
  | AValue true => U"required_value"
  | AValues false => U"optional_values"
  | AValues true => U"required_values"
  end.

(** which elements have which accessors: all have keys and comments, fields, entries and items have a
    value, lists have values *)
Definition has (a : accessor) (c : class) : Prop :=
  match a with
  | AKey | AComment _ => True
  | AValue _ => c = CField \/ c = CEntry \/ c = CItem
  | AValues _ => c = CList
  end.
Definition missing_has (a : accessor) (k : mkind) : Prop :=
  match a with
  | AKey | AComment _ => True
  | AValue _ => k = MKField \/ k = MKEntry
  | AValues _ => k = MKList
  end.

Section Values.
  Context {V : Type}.

  (** the definitions given in some calls, in their order *)
  Definition given_by (d : definition V) : list (text * loader V) :=
    match d with Callable n f => [(n, f)] | Dict l => l end.
  Definition given (calls : list (list (definition V) * list (text * loader V))) : list (text * loader V) :=
    flat_map (fun c => flat_map given_by (fst c) ++ snd c) calls.
  (** the last definition for [n] is [f] *)
  Definition defined (n : text) (f : loader V) (l : list (text * loader V)) : Prop :=
    exists before after, l = before ++ (n, f) :: after /\ ~ In n (map fst after).

  (** the accessor with a loader *)
  Definition with_loader (a : accessor) (o : nat) (f : loader V) : sM (answer V) :=
    match a with
    | AKey => let! v := key_with o f in ret (One (Some v))
    | AComment q => let! v := comment_of o f q in ret (One v)
    | AValue q => let! v := value_of o f q in ret (One v)
    | AValues q => let! l := list_values o f q in ret (Many l)
    end.
  (** the accessor of a missing element *)
  Definition of_missing (a : accessor) (m : missing) : sM (answer V) :=
    match a with
    | AKey => missing_error m
    | AComment q | AValue q => if q then missing_error m else ret (One None)
    | AValues _ => ret (Many [])
    end.
End Values.
