(** SpecCrash: the exceptions programs have to reckon with. *)
From Verif Require Import Base Types Messages Reporter Errors Context Elements Session SpecApi SpecQuery SpecPrint Faults.

(** the loader a program passes to [k] gives up with [n] on some text *)
Definition gives_up (k : call) (n : N) : Prop :=
  match k with
  | Value _ _ ld _ | Values _ _ ld _ | Comment _ _ ld _ | Key _ _ ld => exists t, ld t = LOther n
  | _ => False
  end.
(** the calls that read an attribute of another object than they are called on *)
Definition looks_around (k : call) : bool := match k with RequireElements _ _ | Parent _ => true | _ => false end.

(** [endless h k]: the call [k] may not come back.  [ends h j]: following the links of the copies, one
    gets from [j] to an element that is no copy.  If that is the case for all [j], all calls come back;
    nothing is said about raw(). *)
Definition endless (h : heap) (k : call) : Prop :=
  match k with
  | Raw _ => True
  | Query _ _ _ _ | ListElements _ _ | ListOf _ _ _ | AssertAllTouched _ _ _ _ | Touch _ | RequireElements _ _ | Print _ => exists j, ~ ends h j
  | _ => False
  end.

(** [failing c k e]: the call [k] may end with [e].  There is no case for ParseError, IndexError and
    UnboundLocalError. *)
Inductive failing (c : ctx) (k : call) : exn -> Prop :=
| fl_error v x : validation_error c v = Ok x -> failing c k (ValidationError x)
| fl_loader n : gives_up k n -> failing c k (UserExn n)
| fl_key : failing c k KeyError
| fl_type : failing c k TypeError
| fl_endless : endless (c_heap c) k -> failing c k Fuel
| fl_attribute : looks_around k = true -> failing c k AttributeError.

(** the object a chain of missing elements begins at *)
Fixpoint began_at (m : missing) : nat := match m with Missing _ _ (PMissing m') => began_at m' | Missing _ _ (PObject o) => o end.

(** reading a value, a comment that is not a single empty line, or a key (with a loader: not of a list
    item); [e] is the element [k] is called on *)
Definition plain_reading (h : heap) (e : nat) (k : call) : Prop :=
  match k with
  | Value _ _ _ _ | Values _ _ _ _ => True
  | Comment _ _ _ _ => e <> 0 /\ (forall x, n_comments (hget h e) = Some [x] -> l_text x <> None)
  | Key _ _ _ => e <> 0 /\ n_type (hget h e) <> LIST_ITEM
  | StringKey _ => e <> 0
  | _ => False
  end.
(** a validation error, or what the loader raises *)
Definition as_documented (c : ctx) (k : call) (e : exn) : Prop :=
  (exists v x, e = ValidationError x /\ validation_error c v = Ok x) \/ exists n, e = UserExn n /\ gives_up k n.

(** asking for elements, and whether all were looked at; as what the document itself can be read is not asked *)
Definition asks (s : st) (k : call) : Prop :=
  match k with
  | Query _ _ _ _ | ListElements _ _ | ListOf _ _ _ | QueryEntry _ _ _ | ListEntries _ _ | ListItems _ | AssertAllTouched _ _ _ _ => True
  | Yield _ e => o_instr (oget s e) <> 0
  | _ => False
  end.
(** something asked for was read as something else before *)
Definition taken (s : st) (k : call) : Prop :=
  match k with
  | Query (Some kd) o _ _ | ListOf kd o _ => exists x, read_otherwise s o x kd
  | Yield kd e => exists j y, j <> kd /\ yield_slot j (oget s e) = Some y
  | _ => False
  end.
(** all sections can be shown in reports, and their links end *)
Definition presentable (h : heap) : Prop := forall e, ends h e /\ ~ gap_inside h e.
