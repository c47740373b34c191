(** SpecSaid: what a text says, whatever its layout (SPEC for C57).  Built on the line grammar of [Scan];
    of the analyzer only the names of its complaints are mentioned. *)
From Verif Require Import Base Scan SpecText Analyzer.

(** The contents of an instruction, without its position, white space and escaping.  A comment has the
    column of its text. *)
Inductive said :=
| SaysEmpty
| SaysComment (column : nat) (t : option text)
| SaysContinuation (spaced : bool) (v : option text)
| SaysItem (v : option text)
| SaysEntry (key : text) (v : option text)
| SaysField (key : text) (v : option text)
| SaysMultiline (key : text) (v : option text)
| SaysCopy (key template : text)
| SaysSection (depth : nat) (key : text) (copies : option (bool * text)).     (* deep copy?, template *)

Definition key_at (k : kspan) : span := match k with Plain s => s | Escaped _ s _ => s end.
Definition text_at (inp : text) (v : option span) : option text := option_map (at_range inp) v.
Definition width (s : span) : nat := snd s - fst s.

(** a token read at position [i] *)
Definition meaning (inp : text) (i : nat) (t : token) : option said :=
  match t with
  | TEmpty _ => Some SaysEmpty
  | TDirect _ v => Some (SaysContinuation false (text_at inp v))
  | TSpaced _ v => Some (SaysContinuation true (text_at inp v))
  | TComment _ v => Some (SaysComment (match v with Some s => fst s - i | None => 0 end) (text_at inp v))
  | TItem _ v => Some (SaysItem (text_at inp v))
  | TField k _ v => Some (SaysField (at_range inp (key_at k)) (text_at inp v))
  | TEntry k _ v => Some (SaysEntry (at_range inp (key_at k)) (text_at inp v))
  | TCopy k _ t => Some (SaysCopy (at_range inp (key_at k)) (at_range inp t))
  | TSection op k t => Some (SaysSection (width op) (at_range inp (key_at k))
      (option_map (fun ot => (Nat.eqb (width (fst ot)) 2, at_range inp (snd ot))) t))
  | TMultiline _ _ => None
  end.

(** the instructions from position [i] on *)
Inductive says (inp : text) : nat -> list said -> Prop :=
| sy_end i : length inp <= i -> says inp i []
| sy_line i t e x l : i < length inp -> scan i (skipn i inp) = Some (t, e) -> meaning inp i t = Some x ->
    says inp (S e) l -> says inp i (x :: l)
| sy_multiline i op k e stop o2 k2 e2 l : i < length inp -> scan i (skipn i inp) = Some (TMultiline op k, e) ->
    find_closing (at_range inp op) (at_range inp k) e (skipn e inp) = Some (stop, (o2, k2, e2)) ->
    says inp (S e2) l ->
    says inp i (SaysMultiline (at_range inp k) (if Nat.eqb stop e then None else Some (slice inp (S e) stop)) :: l).

(** The columns of a block of comments, counted from its leftmost text. *)
Fixpoint leftmost (p : list (nat * option text)) : option nat :=
  match p with
  | [] => None
  | (_, None) :: p' => leftmost p'
  | (c, Some _) :: p' => Some (match leftmost p' with Some m => Nat.min c m | None => c end)
  end.
Definition level (p : list (nat * option text)) : list (nat * option text) :=
  map (fun ct => (fst ct - match leftmost p with Some m => m | None => 0 end, snd ct)) p.

(** Blank lines and comments only matter for the comments right above an element. *)
Fixpoint noted (pending : list (nat * option text)) (l : list said) : list (list (nat * option text) * said) :=
  match l with
  | [] => []
  | SaysEmpty :: l' => noted [] l'
  | SaysComment c t :: l' => noted (pending ++ [(c, t)]) l'
  | SaysContinuation s v :: l' => ([], SaysContinuation s v) :: noted [] l'
  | x :: l' => (level pending, x) :: noted [] l'
  end.

(** the elements, items, entries and continuations of a text, with their comments *)
Definition tells (inp : text) (l : list (list (nat * option text) * said)) : Prop :=
  exists l0, says inp 0 l0 /\ l = noted [] l0.

(** The same complaint: of the same kind and about the same elements (numbered in the order of the document).
    Complaints about lines that became no element are compared by kind only. *)
Definition same_complaint (p q : perr) : Prop :=
  match p, q with
  | PInvalidLine _, PInvalidLine _ => True
  | PMissingElementForContinuation _, PMissingElementForContinuation _ => True
  | PMissingListForItem _, PMissingListForItem _ => True
  | PMissingFieldsetForEntry _, PMissingFieldsetForEntry _ => True
  | PLayerSkip _ s, PLayerSkip _ s' => s = s'
  | PUnterminatedMultiline f, PUnterminatedMultiline f' => f = f'
  | PMissingListForItemNode i, PMissingListForItemNode i' => i = i'
  | PMissingFieldsetForEntryNode i, PMissingFieldsetForEntryNode i' => i = i'
  | PCyclic i c, PCyclic i' c' => i = i' /\ c = c'
  | PTwoTemplates i a b, PTwoTemplates i' a' b' => i = i' /\ a = a' /\ b = b'
  | PNonSectionNotFound i, PNonSectionNotFound i' => i = i'
  | PSectionNotFound i, PSectionNotFound i' => i = i'
  | _, _ => False
  end.
