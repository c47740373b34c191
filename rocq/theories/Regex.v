(** Regex: a backtracking matcher with the priority semantics of Python's [re].

    Models the behaviour of [re.compile(...).search/match] used by [grammar_regex.py:99],
    [analyzer.py:336-337] and [errors/parsing.py:7,38].  Positions are absolute indices into
    the searched text; [rest] is always the text from the current position on.  The
    continuation-passing style is exactly backtracking: an alternative is taken if its
    continuation succeeds, otherwise the next one is tried. *)
From Verif Require Import Base.

Inductive re :=
| Eps                                (* the empty pattern *)
| Chr (p : char -> bool)             (* a character class *)
| Cat (a b : re)
| Alt (a b : re)                     (* a|b, left alternative first *)
| Star (greedy : bool) (a : re)      (* a* and a*? *)
| Opt (a : re)                       (* (a)? greedy *)
| Grp (n : nat) (a : re)             (* capturing group number n *)
| Ref (n : nat)                      (* back reference \n *)
| Look (a : re)                      (* (?=a) *)
| NLook (a : re)                     (* (?!a) *)
| Eos.                               (* $ without MULTILINE *)

(** Captured groups, latest capture first. *)
Definition groups := list (nat * (nat * nat)).
Fixpoint gget (g : groups) (n : nat) : option (nat * nat) :=
  match g with
  | [] => None
  | (m, s) :: g' => if Nat.eqb m n then Some s else gget g' n
  end.

Fixpoint strip_prefix (p l : text) : option text :=
  match p, l with
  | [], _ => Some l
  | x :: p', y :: l' => if N.eqb x y then strip_prefix p' l' else None
  | _ :: _, [] => None
  end.

Definition mres := option (nat * groups).
Definition mcont := nat -> text -> groups -> mres.

Section Match.
  Variable inp : text.   (* the searched text; a parameter, generalised at section end *)

  (** [m r i rest g k]: match [r] at position [i] (where the text continues with [rest]) with
      captures [g], then continue with [k]. *)
  Fixpoint m (r : re) (i : nat) (rest : text) (g : groups) (k : mcont) {struct r} : mres :=
    match r with
    | Eps => k i rest g
    | Chr p =>
        match rest with
        | c :: rest' => if p c then k (S i) rest' g else None
        | [] => None
        end
    | Cat a b => m a i rest g (fun i' rest' g' => m b i' rest' g' k)
    | Alt a b =>
        match m a i rest g k with
        | Some x => Some x
        | None => m b i rest g k
        end
    | Opt a =>
        match m a i rest g k with
        | Some x => Some x
        | None => k i rest g
        end
    | Star true a =>
        (fix loop (n : nat) (i : nat) (rest : text) (g : groups) {struct n} : mres :=
           match n with
           | O => k i rest g
           | S n' =>
               match m a i rest g (fun i' rest' g' => if Nat.eqb i' i then None else loop n' i' rest' g') with
               | Some x => Some x
               | None => k i rest g
               end
           end) (length rest) i rest g
    | Star false a =>
        (fix loop (n : nat) (i : nat) (rest : text) (g : groups) {struct n} : mres :=
           match k i rest g with
           | Some x => Some x
           | None =>
               match n with
               | O => None
               | S n' => m a i rest g (fun i' rest' g' => if Nat.eqb i' i then None else loop n' i' rest' g')
               end
           end) (length rest) i rest g
    | Grp n a => m a i rest g (fun i' rest' g' => k i' rest' ((n, (i, i')) :: g'))
    | Ref n =>
        match gget g n with
        | None => None
        | Some (b, e) =>
            match strip_prefix (slice inp b e) rest with
            | Some rest' => k (i + length (slice inp b e)) rest' g
            | None => None
            end
        end
    | Look a =>
        match m a i rest g (fun i' _ g' => Some (i', g')) with
        | Some (_, g') => k i rest g'
        | None => None
        end
    | NLook a =>
        match m a i rest g (fun i' _ g' => Some (i', g')) with
        | Some _ => None
        | None => k i rest g
        end
    | Eos =>
        match rest with
        | [] => k i rest g
        | [c] => if N.eqb c nl then k i rest g else None
        | _ => None
        end
    end.
End Match.

Definition final : mcont := fun i _ g => Some (i, g).

(** A match object: start, end, captures. *)
Record mobj := MkMatch { m_start : nat; m_end : nat; m_groups : groups }.

(** [pattern.match(inp[i:])]-style attempt at exactly position [i]. *)
Definition match_at (r : re) (inp : text) (i : nat) : option mobj :=
  match m inp r i (skipn i inp) [] final with
  | Some (e, g) => Some (MkMatch i e g)
  | None => None
  end.

(** [pattern.search(inp, pos)]: first position [>= pos] at which the pattern matches. *)
Fixpoint search_in (r : re) (inp : text) (i : nat) (rest : text) : option mobj :=
  match m inp r i rest [] final with
  | Some (e, g) => Some (MkMatch i e g)
  | None =>
      match rest with
      | [] => None
      | _ :: rest' => search_in r inp (S i) rest'
      end
  end.
Definition search (r : re) (inp : text) (pos : nat) : option mobj :=
  search_in r inp pos (skipn pos inp).

(** [match.span(n)] and [match.group(n)]. *)
Definition mspan (mo : mobj) (n : nat) : option (nat * nat) := gget (m_groups mo) n.
Definition mgroup (inp : text) (mo : mobj) (n : nat) : option text :=
  match mspan mo n with
  | Some (b, e) => Some (slice inp b e)
  | None => None
  end.

(** Notational helpers for transcription. *)
Definition lit (c : char) : re := Chr (fun x => N.eqb x c).
Definition plus (greedy : bool) (a : re) : re := Cat a (Star greedy a).
Fixpoint lits (s : text) : re :=
  match s with
  | [] => Eps
  | [c] => lit c
  | c :: s' => Cat (lit c) (lits s')
  end.
