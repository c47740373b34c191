(** SpecQuery: answers of the element API (SPEC for C28-C31, C35, C47). *)
From Verif Require Import Base Types Messages Reporter Errors Elements SpecTree SpecRead SpecApi.

(** the exception raised for an error object (building the error object may raise itself) *)
Definition raised {A} (x : res eno_error) : res A := match x with Ok e => Raise (ValidationError e) | Raise y => Raise y end.

(** [o] is an object of class [cl] for instruction [e], below the object [p] *)
Definition is_obj (s : st) (o : nat) (cl : class) (e : nat) (p : option nat) : Prop :=
  o < length (s_objs s) /\ o_class (oget s o) = cl /\ o_instr (oget s o) = e /\ o_parent (oget s o) = p.
(** [o] is an object of class [cl] for instruction [e] *)
Definition names (s : st) (o : nat) (cl : class) (e : nat) : Prop :=
  o < length (s_objs s) /\ o_class (oget s o) = cl /\ o_instr (oget s o) = e.

(** what an element written with type [t] may be read as: an empty element as anything but a
    section, everything else as what it is *)
Definition readable (t : itype) (k : kind) : bool :=
  match t with
  | EMPTY_ELEMENT => match k with KSection => false | _ => true end
  | FIELD | MULTILINE_FIELD_BEGIN => match k with KField => true | _ => false end
  | FIELDSET => match k with KFieldset => true | _ => false end
  | LIST => match k with KList => true | _ => false end
  | SECTION => match k with KSection => true | _ => false end
  | _ => false
  end.

(** the element [x] of section object [o] was already read as a kind other than [k] *)
Definition read_otherwise (s : st) (o x : nat) (k : kind) : Prop :=
  exists l z j y, o_children (oget s o) = Some l /\ In z l /\ o_instr (oget s z) = x /\ j <> k /\ yield_slot j (oget s z) = Some y.

Definition missing_kind (what : option kind) : mkind :=
  match what with
  | None => MKElement | Some KEmpty => MKEmpty | Some KField => MKField | Some KFieldset => MKFieldset
  | Some KList => MKList | Some KSection => MKSection
  end.
Definition missing_message (what : option kind) : qmsg :=
  match what with
  | None => Q_missing_element | Some KEmpty => Q_missing_empty | Some KField => Q_missing_field
  | Some KFieldset => Q_missing_fieldset | Some KList => Q_missing_list | Some KSection => Q_missing_section
  end.
Definition single_message (what : option kind) : qmsg :=
  match what with
  | None => Q_expected_single_element | Some KEmpty => Q_expected_single_empty | Some KField => Q_expected_single_field
  | Some KFieldset => Q_expected_single_fieldset | Some KList => Q_expected_single_list
  | Some KSection => Q_expected_single_section
  end.
Definition kind_message (k : kind) : qmsg :=
  match k with
  | KEmpty => Q_expected_empty | KField => Q_expected_field | KFieldset => Q_expected_fieldset
  | KList => Q_expected_list | KSection => Q_expected_section
  end.
Definition kinds_message (k : kind) : qmsg :=
  match k with
  | KEmpty => Q_expected_empty | KField => Q_expected_fields | KFieldset => Q_expected_fieldsets
  | KList => Q_expected_lists | KSection => Q_expected_sections
  end.

(** nothing found: an error if asked for, or if the flag of the parent object says so; otherwise a
    missing element (nothing said about being required) or None *)
Definition none_found (required : option bool) (all_required : bool) (error : res eno_error) (m : missing) : res found :=
  match required, all_required with
  | Some true, _ | _, true => raised error
  | None, false => Ok (FMissing m)
  | Some false, false => Ok FNone
  end.

(** the answer to a query for the one element with a key *)
Definition single_answer (c : ctx) (s s' : st) (what : option kind) (o e : nat) (k : option text) (required : option bool)
  (hits : list nat) (v : res found) : Prop :=
  match hits with
  | [] => v = none_found required (o_req (oget s o)) (v_missing_element c k e (missing_message what))
                (Missing (missing_kind what) k (PObject o))
  | [x] =>
      match what with
      | None => exists y, v = Ok (FObj y) /\ is_obj s' y CSectionElement x (Some o)
      | Some kd =>
          if readable (n_type (hget (c_heap c) x)) kd then
            (exists y, v = Ok (FObj y) /\ is_obj s' y (kind_class kd) x (Some o) /\ ~ read_otherwise s o x kd) \/
            (v = Raise TypeError /\ read_otherwise s o x kd)
          else v = raised (v_unexpected_element_type c k x (kind_message kd))
      end
  | _ => v = raised (v_unexpected_multiple_elements c k hits (single_message what))
  end.

(** the answer to a query for the one entry with a key *)
Definition entry_answers (c : ctx) (s s' : st) (o e : nat) (k : option text) (required : option bool) (hits : list nat) (v : res found) : Prop :=
  match hits with
  | [] => v = none_found required (o_req (oget s o)) (v_missing_element c k e Q_missing_fieldset_entry) (Missing MKEntry k (PObject o))
  | [x] => exists y, v = Ok (FObj y) /\ is_obj s' y CEntry x (Some o)
  | _ => v = raised (v_unexpected_multiple_elements c k hits Q_expected_single_fieldset_entry)
  end.

(** the answer to a query for all elements with a key *)
Definition plural_answer (c : ctx) (s s' : st) (kd : kind) (o : nat) (k : option text) (hits : list nat) (v : res (list nat)) : Prop :=
  (exists ys, v = Ok ys /\ Forall2 (fun y x => is_obj s' y (kind_class kd) x (Some o)) ys hits /\
     Forall (fun x => readable (n_type (hget (c_heap c) x)) kd = true /\ ~ read_otherwise s o x kd) hits) \/
  (exists before x after, hits = before ++ x :: after /\
     Forall (fun x => readable (n_type (hget (c_heap c) x)) kd = true /\ ~ read_otherwise s o x kd) before /\
     if readable (n_type (hget (c_heap c) x)) kd then v = Raise TypeError /\ read_otherwise s o x kd
     else v = raised (v_unexpected_element_type c k x (kinds_message kd))).

(** the missing element that is directly below an existing object *)
Fixpoint outermost (m : missing) : mkind * option text * nat :=
  match m with
  | Missing k key (PObject o) => (k, key, o)
  | Missing _ _ (PMissing m') => outermost m'
  end.
Definition absence_message (k : mkind) : qmsg :=
  match k with
  | MKField => Q_missing_field | MKFieldset => Q_missing_fieldset | MKList => Q_missing_list | MKSection => Q_missing_section
  | MKElement | MKEmpty | MKEntry => Q_missing_element
  end.
