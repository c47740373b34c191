(** Base: characters, text, Python string primitives, results with exceptions. *)
From Coq Require Export String Ascii.
From Coq Require Export List Arith NArith Bool Lia.
Export ListNotations.

(** A Python [str] is a sequence of Unicode code points. *)
Notation char := N (only parsing).
Notation text := (list N) (only parsing).

(** Literals.  A Coq string literal holds UTF-8 bytes; [U] decodes it into code points
    (only used for literals written in this development). *)
Fixpoint bytes (s : string) : list N :=
  match s with
  | EmptyString => []
  | String a s' => N_of_ascii a :: bytes s'
  end.

Fixpoint utf8 (l : list N) : text :=
  match l with
  | [] => []
  | a :: l1 =>
      if (a <? 128)%N then a :: utf8 l1 else
      match l1 with
      | [] => [a]
      | b :: l2 =>
          if (a <? 224)%N then ((a - 192) * 64 + (b - 128))%N :: utf8 l2 else
          match l2 with
          | [] => [a; b]
          | c :: l3 => ((a - 224) * 4096 + (b - 128) * 64 + (c - 128))%N :: utf8 l3
          end
      end
  end.

Definition U (s : string) : text := utf8 (bytes s).
Arguments U s%string.

Definition nl : char := 10%N.

Definition ceq (a b : char) : bool := N.eqb a b.

Fixpoint text_eqb (a b : text) : bool :=
  match a, b with
  | [], [] => true
  | x :: a', y :: b' => N.eqb x y && text_eqb a' b'
  | _, _ => false
  end.

(** Python's [\s] for [str] patterns (= [str.isspace] of the character): the Unicode
    white space characters, plus the ASCII separators 0x1c-0x1f. *)
Definition is_space (c : char) : bool :=
  ((9 <=? c) && (c <=? 13) || (28 <=? c) && (c <=? 32) || (c =? 133) || (c =? 160) ||
   (c =? 5760) || (8192 <=? c) && (c <=? 8202) || (c =? 8232) || (c =? 8233) ||
   (c =? 8239) || (c =? 8287) || (c =? 12288))%N.

(** [[^\S\n]] : white space other than the line feed. *)
Definition hspace (c : char) : bool := is_space c && negb (N.eqb c nl).

(** [[^\n]] *)
Definition not_nl (c : char) : bool := negb (N.eqb c nl).

Fixpoint takewhile {A} (p : A -> bool) (l : list A) : list A :=
  match l with
  | [] => []
  | x :: l' => if p x then x :: takewhile p l' else []
  end.

Fixpoint dropwhile {A} (p : A -> bool) (l : list A) : list A :=
  match l with
  | [] => []
  | x :: l' => if p x then dropwhile p l' else l
  end.

(** Python slice [s[b:e]] for [0 <= b], [0 <= e]. *)
Definition slice (s : text) (b e : nat) : text := firstn (e - b) (skipn b s).

(** [s.find('\n', i)] ([None] for -1). *)
Fixpoint find_nl_in (l : text) (i : nat) : option nat :=
  match l with
  | [] => None
  | c :: l' => if N.eqb c nl then Some i else find_nl_in l' (S i)
  end.
Definition find_nl (s : text) (i : nat) : option nat := find_nl_in (skipn i s) i.
(** [s.find('\n', i, e)] *)
Definition find_nl_to (s : text) (i e : nat) : option nat :=
  find_nl_in (slice s i e) i.

(** [str(n)] for a natural number. *)
Fixpoint dec_fuel (fuel n : nat) (acc : text) : text :=
  match fuel with
  | O => acc
  | S f =>
      let d := N.add 48 (N.of_nat (Nat.modulo n 10)) in
      if Nat.ltb n 10 then d :: acc else dec_fuel f (Nat.div n 10) (d :: acc)
  end.
Definition dec (n : nat) : text := dec_fuel (S n) n [].

(** [s.rjust(w)] *)
Definition rjust (w : nat) (s : text) : text := repeat 32%N (w - length s) ++ s.

(** ['sep'.join(parts)] *)
Fixpoint join (sep : text) (parts : list text) : text :=
  match parts with
  | [] => []
  | [p] => p
  | p :: ps => p ++ sep ++ join sep ps
  end.

(** List update: [l[i] = f(l[i])]; no effect when [i] is out of range. *)
Fixpoint upd {A} (l : list A) (i : nat) (f : A -> A) : list A :=
  match l, i with
  | [], _ => []
  | x :: l', O => f x :: l'
  | x :: l', S i' => x :: upd l' i' f
  end.

(** [dict.get]-style association by text key, insertion ordered. *)
Fixpoint assoc {A} (k : text) (l : list (text * A)) : option A :=
  match l with
  | [] => None
  | (k', v) :: l' => if text_eqb k k' then Some v else assoc k l'
  end.

(** [d[k] = f(d[k])] if present, else insert [d[k] = v] at the end. *)
Fixpoint assoc_upd {A} (k : text) (f : A -> A) (v : A) (l : list (text * A)) : list (text * A) :=
  match l with
  | [] => [(k, v)]
  | (k', w) :: l' => if text_eqb k k' then (k', f w) :: l' else (k', w) :: assoc_upd k f v l'
  end.

Definition opt_is {A} (o : option A) : bool := match o with Some _ => true | None => false end.

(** * Basic lemmas *)

Lemma text_eqb_eq a b : text_eqb a b = true <-> a = b.
Proof.
  revert b; induction a as [|x a IH]; intros [|y b]; simpl; split; intro H; try discriminate; auto.
  - apply andb_true_iff in H as [H1 H2]. apply N.eqb_eq in H1. apply IH in H2. congruence.
  - injection H as -> ->. rewrite N.eqb_refl. simpl. now apply IH.
Qed.

Lemma text_eqb_refl a : text_eqb a a = true.
Proof. now apply text_eqb_eq. Qed.

Lemma text_eqb_neq a b : text_eqb a b = false <-> a <> b.
Proof.
  destruct (text_eqb a b) eqn:E; split; intro H; try congruence.
  - apply text_eqb_eq in E. congruence.
  - intros ->. rewrite text_eqb_refl in E. discriminate.
Qed.

Lemma text_eqb_sym a b : text_eqb a b = text_eqb b a.
Proof.
  destruct (text_eqb a b) eqn:E.
  - apply text_eqb_eq in E as ->. symmetry; apply text_eqb_refl.
  - symmetry. apply text_eqb_neq. apply text_eqb_neq in E. congruence.
Qed.

Lemma take_drop_while {A} (p : A -> bool) l : takewhile p l ++ dropwhile p l = l.
Proof. induction l as [|x l IH]; simpl; auto. destruct (p x); simpl; congruence. Qed.

Lemma takewhile_all {A} (p : A -> bool) l : forallb p (takewhile p l) = true.
Proof. induction l as [|x l IH]; simpl; auto. destruct (p x) eqn:E; simpl; auto. now rewrite E. Qed.

Lemma dropwhile_head {A} (p : A -> bool) l x r : dropwhile p l = x :: r -> p x = false.
Proof.
  induction l as [|y l IH]; simpl; [discriminate|]. destruct (p y) eqn:E; auto.
  intros [= -> ->]. exact E.
Qed.

Lemma dropwhile_head_match {A} (p : A -> bool) l :
  match dropwhile p l with [] => True | x :: _ => p x = false end.
Proof. destruct (dropwhile p l) eqn:E; [exact I|]. now apply dropwhile_head in E. Qed.

Lemma upd_length {A} (l : list A) i f : length (upd l i f) = length l.
Proof. revert i; induction l as [|x l IH]; intros [|i]; simpl; auto. Qed.

Lemma nth_error_upd_eq {A} (l : list A) i f x :
  nth_error l i = Some x -> nth_error (upd l i f) i = Some (f x).
Proof. revert i; induction l as [|y l IH]; intros [|i]; simpl; try discriminate; auto. congruence. Qed.

Lemma nth_error_upd_neq {A} (l : list A) i j f :
  i <> j -> nth_error (upd l i f) j = nth_error l j.
Proof. revert i j; induction l as [|y l IH]; intros [|i] [|j] H; simpl; auto; try congruence. Qed.

Lemma nth_upd_eq {A} (l : list A) i f d : i < length l -> nth i (upd l i f) d = f (nth i l d).
Proof. revert i; induction l as [|y l IH]; intros [|i] H; simpl in *; try lia; auto. apply IH; lia. Qed.

Lemma nth_upd_neq {A} (l : list A) i j f d : i <> j -> nth j (upd l i f) d = nth j l d.
Proof. revert i j; induction l as [|y l IH]; intros [|i] [|j] H; simpl; auto; try congruence. Qed.

Lemma upd_app_l {A} (l1 l2 : list A) i f : i < length l1 -> upd (l1 ++ l2) i f = upd l1 i f ++ l2.
Proof. revert i; induction l1 as [|x l1 IH]; intros [|i] H; simpl in *; try lia; auto. f_equal; apply IH; lia. Qed.

Lemma upd_ge {A} (l : list A) i f : length l <= i -> upd l i f = l.
Proof. revert i; induction l as [|x l IH]; intros [|i] H; simpl in *; auto; try lia. f_equal; apply IH; lia. Qed.

Lemma skipn_S_cons {A} (l : list A) i x r : skipn i l = x :: r -> skipn (S i) l = r.
Proof.
  revert i; induction l as [|y l IH]; intros [|i]; simpl; try discriminate; auto.
  - now intros [= -> ->].
  - intro H. apply IH in H. exact H.
Qed.

Lemma skipn_plus {A} (l : list A) i j : skipn (i + j) l = skipn j (skipn i l).
Proof.
  revert i; induction l as [|y l IH]; intros [|i]; simpl; auto.
  - now rewrite !skipn_nil.
Qed.

Lemma skipn_length_lt {A} (l : list A) i x r : skipn i l = x :: r -> i < length l.
Proof.
  intro H. destruct (le_lt_dec (length l) i) as [Hle|Hlt]; auto.
  rewrite skipn_all2 in H by exact Hle. discriminate.
Qed.
