(** SpecLoad: reading values, comments and keys with loaders (SPEC for C35). *)
From Verif Require Import Base Types Messages Reporter Errors Elements SpecTree SpecRead SpecApi SpecQuery.

(** the text of a value: of the element itself, or of the element it mirrors *)
Inductive value_text (inp : text) (h : heap) : nat -> option text -> Prop :=
| vt_own e v : n_mirror (hget h e) = None -> plain_value inp (hget h e) v -> value_text inp h e v
| vt_mirror e m v : mirrors h e m -> value_text inp h m v -> value_text inp h e v.

(** the objects with value accessors: fields, fieldset entries, list items *)
Definition has_value (cl : class) : Prop := cl = CField \/ cl = CEntry \/ cl = CItem.

(** the text of a comment *)
Definition comment_text (h : heap) (e : nat) (v : option text) : Prop :=
  match n_comments (hget h e) with None => v = None | Some ls => block_text ls v end.
(** the comment is a single line without text *)
Definition hollow_comment (h : heap) (e : nat) : bool :=
  match n_comments (hget h e) with Some [x] => match l_text x with None => true | Some _ => false end | _ => false end.

(** the key of an element; the key of a list item is that of its list; the document has none *)
Definition read_key (h : heap) (e : nat) : option text :=
  match n_type (hget h e) with
  | LIST_ITEM => match n_parent (hget h e) with Some p => n_key (hget h p) | None => None end
  | _ => n_key (hget h e)
  end.

(** what the caller sees of the outcome of a loader *)
Definition loaded {A} (ld : loader A) (t : text) (error : text -> res eno_error) : res A :=
  match ld t with LOk a => Ok a | LValueError m => raised (error m) | LOther n => Raise (UserExn n) end.

Definition present {A} (x : res A) : res (option A) := match x with Ok a => Ok (Some a) | Raise e => Raise e end.
(** what is absent is None, or an error if required *)
Definition absent_is {A} (required : bool) (error : res eno_error) : res (option A) := if required then raised error else Ok None.

Definition value_outcome {A} (c : ctx) (e : nat) (ld : loader A) (required : bool) (v : option text) : res (option A) :=
  match v with
  | Some t => present (loaded ld t (fun m => v_value_error c m e))
  | None => absent_is required (v_missing_value c e)
  end.
Definition comment_outcome {A} (c : ctx) (e : nat) (ld : loader A) (required : bool) (v : option text) : res (option A) :=
  if hollow_comment (c_heap c) e then Raise KeyError else
  match v with
  | Some (ch :: t) => present (loaded ld (ch :: t) (fun m => v_comment_error c m e))
  | _ => absent_is required (v_missing_comment c e)
  end.
Definition key_outcome {A} (c : ctx) (e : nat) (ld : loader A) : res A :=
  match read_key (c_heap c) e with Some k => loaded ld k (fun m => v_key_error c m e) | None => Raise KeyError end.

(** one outcome after the other; the first failure is that of the whole *)
Inductive in_turn {A} : list (res A) -> res (list A) -> Prop :=
| it_nil : in_turn [] (Ok [])
| it_ok a l ys : in_turn l (Ok ys) -> in_turn (Ok a :: l) (Ok (a :: ys))
| it_later a l e : in_turn l (Raise e) -> in_turn (Ok a :: l) (Raise e)
| it_fail e l : in_turn (Raise e :: l) (Raise e).

(** [t] occurs in [u] *)
Definition contains (u t : text) : Prop := exists a b, u = a ++ t ++ b.
