(** Scan: the line grammar of eno, stated declaratively (SPEC for property C03).

    No regular expressions and no backtracking here: what an instruction is, is decided by its
    first visible character, and keys / values / templates are trimmed pieces of the line.
    A [span] is a pair of absolute positions; [i] is always the position of the first character
    of the text argument. *)
From Verif Require Import Base Grammar.

Definition span := (nat * nat)%type.

(** A key written plainly, or between backticks (begin operator, key, end operator). *)
Inductive kspan := Plain (k : span) | Escaped (b k e : span).

Inductive token :=
| TEmpty (at_ : nat)
| TDirect (op : span) (v : option span)                  (* | value *)
| TSpaced (op : span) (v : option span)                  (* \ value *)
| TComment (op : span) (v : option span)                 (* > comment *)
| TItem (op : span) (v : option span)                    (* - value *)
| TMultiline (op key : span)                             (* -- key *)
| TSection (op : span) (key : kspan) (tpl : option (span * span))   (* # key < template *)
| TField (key : kspan) (op : span) (v : option span)     (* key: value *)
| TEntry (key : kspan) (op : span) (v : option span)     (* key = value *)
| TCopy (key : kspan) (op t : span).                     (* key < template *)

(** the rest of the current line *)
Definition line_of (r : text) : text := takewhile not_nl r.
(** remove trailing white space *)
Definition rtrim (l : text) : text := rev (dropwhile hspace (rev l)).

Definition spaces (r : text) : nat := length (takewhile hspace r).
Definition after_spaces (r : text) : text := dropwhile hspace r.
Definition blanks (r : text) : nat := length (takewhile is_space r).     (* also line feeds *)
Definition after_blanks (r : text) : text := dropwhile is_space r.

(** the position of the end of the line *)
Definition eol (i : nat) (r : text) : nat := i + length (line_of r).

(** The trimmed rest of the line, if there is anything but white space in it. *)
Definition opt_value (i : nat) (r : text) : option span :=
  match rtrim (line_of (after_spaces r)) with
  | [] => None
  | v => Some (i + spaces r, i + spaces r + length v)
  end.

(** What follows a section key: nothing, or [<] / [<<] and a template. *)
Definition section_tail (i : nat) (r : text) : option (option (span * span) * nat) :=
  let p := i + spaces r in
  match after_spaces r with
  | [] => Some (None, p)
  | c :: r1 =>
      if N.eqb c nl then Some (None, p)
      else if N.eqb c c_lt then
        let '(n, r2) := match r1 with
                        | d :: r2 => if N.eqb d c_lt then (2, r2) else (1, r1)
                        | [] => (1, r1)
                        end in
        match opt_value (p + n) r2 with
        | Some t => Some (Some ((p, p + n), t), eol (p + n) r2)
        | None => None
        end
      else None
  end.

(** What follows the key of an element: an operator (possibly after line feeds) and a value or
    template. *)
Inductive ltail := LField (op : span) (v : option span) | LEntry (op : span) (v : option span)
                 | LCopy (op t : span).
Definition late_tail (i : nat) (r : text) : option (ltail * nat) :=
  let p := i + blanks r in
  match after_blanks r with
  | [] => None
  | c :: r1 =>
      if N.eqb c c_colon then Some (LField (p, p + 1) (opt_value (p + 1) r1), eol (p + 1) r1)
      else if N.eqb c c_eq then Some (LEntry (p, p + 1) (opt_value (p + 1) r1), eol (p + 1) r1)
      else if N.eqb c c_lt then
        let q := p + 1 + blanks r1 in
        let r2 := after_blanks r1 in
        match opt_value q r2 with
        | Some t => Some (LCopy (p, p + 1) t, eol q r2)
        | None => None
        end
      else None
  end.

(** The end of an escaped key: the first place on the line where white space, the same backticks
    and an acceptable continuation ([tail]) follow.  Result: end of key, start of backticks,
    continuation. *)
Fixpoint close_key {A} (tail : nat -> text -> option A) (ticks : text) (i : nat) (r : text)
  : option (nat * nat * A) :=
  let here :=
    match Regex.strip_prefix ticks (after_spaces r) with
    | Some r2 => tail (i + spaces r + length ticks) r2
    | None => None
    end in
  match here with
  | Some x => Some (i, i + spaces r, x)
  | None =>
      match r with
      | c :: r' => if not_nl c then close_key tail ticks (S i) r' else None
      | [] => None
      end
  end.

(** A key and what follows it.  [first]/[char_ok]: characters allowed in a plain key. *)
Definition scan_key {A} (first char_ok : char -> bool) (tail : nat -> text -> option A)
  (i : nat) (r : text) : option (kspan * A) :=
  match r with
  | [] => None
  | c :: r' =>
      if first c then
        let k := rtrim (c :: takewhile char_ok r') in
        match tail (i + length k) (skipn (length k) r) with
        | Some x => Some (Plain (i, i + length k), x)
        | None => None
        end
      else if N.eqb c c_tick then
        let ticks := takewhile (fun x => N.eqb x c_tick) r in
        let r1 := dropwhile (fun x => N.eqb x c_tick) r in
        let p := i + length ticks + spaces r1 in
        match after_spaces r1 with
        | [] => None
        | d :: r2 =>
            if N.eqb d nl then None
            else
              match close_key tail ticks (S p) r2 with
              | Some (ke, tb, x) =>
                  Some (Escaped (i, i + length ticks) (p, ke) (tb, tb + length ticks), x)
              | None => None
              end
        end
      else None
  end.

(** One instruction, starting at position [i]: token and end position. *)
Definition scan (i : nat) (r0 : text) : option (token * nat) :=
  let p := i + spaces r0 in
  let r := after_spaces r0 in
  match r with
  | [] => Some (TEmpty p, p)
  | c :: r1 =>
      let op := (p, p + 1) in
      if N.eqb c nl then Some (TEmpty p, p)
      else if N.eqb c c_pipe then Some (TDirect op (opt_value (p + 1) r1), eol p r)
      else if N.eqb c c_bslash then Some (TSpaced op (opt_value (p + 1) r1), eol p r)
      else if N.eqb c c_gt then Some (TComment op (opt_value (p + 1) r1), eol p r)
      else if N.eqb c c_dash then
        let n := length (takewhile (fun x => N.eqb x c_dash) r) in
        let r2 := dropwhile (fun x => N.eqb x c_dash) r in
        if Nat.eqb n 1 then Some (TItem op (opt_value (p + 1) r1), eol p r)
        else
          match opt_value (p + n) r2 with
          | Some k => Some (TMultiline (p, p + n) k, eol p r)
          | None => None
          end
      else if N.eqb c c_hash then
        let n := length (takewhile (fun x => N.eqb x c_hash) r) in
        let r2 := dropwhile (fun x => N.eqb x c_hash) r in
        match scan_key skey_first skey_char section_tail (p + n + blanks r2) (after_blanks r2) with
        | Some (k, (t, e)) => Some (TSection (p, p + n) k t, e)
        | None => None
        end
      else
        match scan_key key_first key_char late_tail p r with
        | Some (k, (LField o v, e)) => Some (TField k o v, e)
        | Some (k, (LEntry o v, e)) => Some (TEntry k o v, e)
        | Some (k, (LCopy o t, e)) => Some (TCopy k o t, e)
        | None => None
        end
  end.

(** The line that closes a multiline field, read from behind the preceding line feed: the
    opening operator and key repeated, white space around them ignored.  Result: positions of
    operator, key and the end of the line. *)
Definition closing_line (operator key : text) (i : nat) (r : text) : option (span * span * nat) :=
  let p := i + spaces r in
  match Regex.strip_prefix operator (after_spaces r) with
  | None => None
  | Some r1 =>
      if match r1 with c :: _ => N.eqb c c_dash | [] => false end then None else
      let q := p + length operator in
      let k := q + spaces r1 in
      match Regex.strip_prefix key (after_spaces r1) with
      | None => None
      | Some r2 =>
          let e := k + length key in
          if forallb hspace (line_of r2) then Some ((p, q), (k, e), eol e r2) else None
      end
  end.

(** The first line feed from position [i] on that is followed by such a line. *)
Fixpoint find_closing (operator key : text) (i : nat) (r : text) : option (nat * (span * span * nat)) :=
  match r with
  | [] => None
  | c :: r' =>
      match (if N.eqb c nl then closing_line operator key (S i) r' else None) with
      | Some x => Some (i, x)
      | None => find_closing operator key (S i) r'
      end
  end.
