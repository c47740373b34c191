(** SpecReturns: answers that differ in carriage returns only (SPEC for C59). *)
From Verif Require Import Base Types SpecEndings Reporter Context ReadOps.

(** values without carriage returns; comments and keys as they are *)
Fixpoint raw_without (x : raw_t) : raw_t :=
  match x with
  | RawField c k v => RawField c k (option_map strip v)
  | RawItem c v => RawItem c (option_map strip v)
  | RawEntry c k v => RawEntry c k (option_map strip v)
  | RawList c k l => RawList c k (map raw_without l)
  | RawFieldset c k l => RawFieldset c k (map raw_without l)
  | RawSection c k l => RawSection c k (map raw_without l)
  | RawDocument l => RawDocument (map raw_without l)
  | RawEmpty _ _ | RawOther _ => x
  end.
Definition answer_without (x : answer) : answer :=
  match x with AnsText v => AnsText (option_map strip v) | AnsRaw r => AnsRaw (raw_without r) | _ => x end.

(** answers to the question [a]: equal, apart from the carriage returns in values *)
Definition same_but_returns (a : ask) (r r' : res answer) : Prop :=
  match r, r' with
  | Ok x, Ok x' => match a with AskValue _ | AskRaw _ => answer_without x = answer_without x' | _ => x = x' end
  | Raise e, Raise e' => e = e'
  | _, _ => False
  end.
