(** SpecEndings: texts with the line endings of other systems (SPEC for C59). *)
From Verif Require Import Base SpecSaid.

Definition cr : char := 13%N.
(** every line feed with a carriage return before it *)
Fixpoint crlf (t : text) : text :=
  match t with
  | [] => []
  | c :: t' => if N.eqb c nl then cr :: nl :: crlf t' else c :: crlf t'
  end.

(** values of multiline fields keep the carriage returns, also the one of their last line *)
Definition with_returns (x : said) : said :=
  match x with
  | SaysMultiline k (Some v) => SaysMultiline k (Some (crlf v ++ [cr]))
  | _ => x
  end.

(** instructions without a multiline value *)
Definition no_block (x : said) : Prop := match x with SaysMultiline _ (Some _) => False | _ => True end.

(** a text without its carriage returns *)
Definition strip (t : text) : text := filter (fun c => negb (N.eqb c cr)) t.
