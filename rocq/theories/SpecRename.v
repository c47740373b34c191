(** SpecRename: texts with other keys and other values (SPEC for C60). *)
From Verif Require Import Base Types SpecSaid Reporter Context ReadOps.

(** Another name for every key; different keys get different names (no key is empty). *)
Definition renaming (r : text -> text) : Prop := r [] = [] /\ forall a b, r a = r b -> a = b.
(** What is observed of values.  The parts of a value observed determine what is observed of the whole. *)
Definition observation (o : text -> text) : Prop := forall a a' b b', o a = o a' -> o b = o b' -> o (a ++ b) = o (a' ++ b').

(** instructions with renamed keys and observed values *)
Definition said_as (r o : text -> text) (x : said) : said :=
  match x with
  | SaysEmpty => SaysEmpty
  | SaysComment c t => SaysComment c t
  | SaysContinuation s v => SaysContinuation s (option_map o v)
  | SaysItem v => SaysItem (option_map o v)
  | SaysEntry k v => SaysEntry (r k) (option_map o v)
  | SaysField k v => SaysField (r k) (option_map o v)
  | SaysMultiline k v => SaysMultiline (r k) (option_map o v)
  | SaysCopy k t => SaysCopy (r k) (r t)
  | SaysSection d k t => SaysSection d (r k) (option_map (fun bt => (fst bt, r (snd bt))) t)
  end.
Definition told_as (r o : text -> text) (L : list (list (nat * option text) * said)) := map (fun cx => (fst cx, said_as r o (snd cx))) L.

(** answers likewise *)
Fixpoint raw_as (r o : text -> text) (x : raw_t) : raw_t :=
  match x with
  | RawEmpty c k => RawEmpty c (r k)
  | RawField c k v => RawField c (r k) (option_map o v)
  | RawItem c v => RawItem c (option_map o v)
  | RawEntry c k v => RawEntry c (r k) (option_map o v)
  | RawList c k l => RawList c (r k) (map (raw_as r o) l)
  | RawFieldset c k l => RawFieldset c (r k) (map (raw_as r o) l)
  | RawSection c k l => RawSection c (r k) (map (raw_as r o) l)
  | RawDocument l => RawDocument (map (raw_as r o) l)
  | RawOther c => RawOther c
  end.
Definition answer_as (r o : text -> text) (a : ask) (x : res answer) : res answer :=
  match x with
  | Ok (AnsText v) => Ok (AnsText (match a with AskValue _ => option_map o v | _ => v end))
  | Ok (AnsRaw y) => Ok (AnsRaw (raw_as r o y))
  | _ => x
  end.
Definition same_text (t : text) : text := t.
