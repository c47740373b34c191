(** SpecRemarks: which comment each section has, deep copies included (SPEC for C49).  Mentions only
    what the document says. *)
From Verif Require Import Base Types SpecTree SpecResolve SpecMerge.

(** the comment lines of section [i]: its own; if it has none, those of the sections that copies give
    it, of which the innermost copy that gives any counts *)
Inductive remark (h : heap) : nat -> option (list leaf) -> Prop :=
| rk_own i l : n_comments (hget h i) = Some l -> remark h i (Some l)
| rk_given i a u j l : n_comments (hget h i) = None -> gives h a u i j -> remark h j (Some l) ->
    (forall a' u' j', encloses h a a' -> gives h a' u' i j' -> remark h j' None) -> remark h i (Some l)
| rk_none i : n_comments (hget h i) = None -> (forall a u j, gives h a u i j -> remark h j None) -> remark h i None.
