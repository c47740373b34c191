(** Register: model of [register.py] and of the method lookup of Python it relies on.

    [register] adds methods to six classes of the library with [setattr].  The classes are modelled
    with the names of all methods in their bodies; an attribute of an object is the first one
    found along its class and the classes it inherits from.  Attributes of Python's [object] are
    left out (their names begin and end with two underscores, the names [register] sets end with
    [_key], [_comment], [_value] or [_values]).  The methods [register] can interfere with (keys,
    comments, values) are run, and they look up the other methods they use in the table of
    classes; every other method is only named ([Elsewhere]).  Values that loaders return form one
    type [V]; [str] makes a value of a text. *)
From Verif Require Import Base Types Messages Reporter Errors Context Elements.

(** elements/*.py, elements/missing/*.py: the class statements *)
Inductive pyclass :=
| PElementBase | PValueElementBase | PSection | PSectionElement | PElement | PField | PFieldset | PEntry | PList | PItem | PEmpty
| PMissingElementBase | PMissingValueElementBase | PMissingEmpty | PMissingField | PMissingFieldset | PMissingEntry
| PMissingList | PMissingSection | PMissingSectionElement.

Definition pyclass_eqb (a b : pyclass) : bool :=
  match a, b with
  | PElementBase, PElementBase | PValueElementBase, PValueElementBase | PSection, PSection | PSectionElement, PSectionElement
  | PElement, PElement | PField, PField | PFieldset, PFieldset | PEntry, PEntry | PList, PList | PItem, PItem | PEmpty, PEmpty
  | PMissingElementBase, PMissingElementBase | PMissingValueElementBase, PMissingValueElementBase
  | PMissingEmpty, PMissingEmpty | PMissingField, PMissingField | PMissingFieldset, PMissingFieldset
  | PMissingEntry, PMissingEntry | PMissingList, PMissingList | PMissingSection, PMissingSection
  | PMissingSectionElement, PMissingSectionElement => true
  | _, _ => false
  end.

(** the class and those it inherits from, in the order of lookup *)
Definition mro (c : pyclass) : list pyclass :=
  match c with
  | PElementBase => [PElementBase]
  | PValueElementBase => [PValueElementBase; PElementBase]       (* value_element_base.py:5 *)
  | PField | PEntry | PItem => [c; PValueElementBase; PElementBase]
                                    (* field.py:6, fieldset_entry.py:5, list_item.py:5 *)
  | PElement => [PElement; PSectionElement; PElementBase]        (* element.py:8 *)
  | PSection | PSectionElement | PFieldset | PList | PEmpty => [c; PElementBase]
                                    (* section.py:12, section_element.py:10, fieldset.py:8, list.py:6, empty.py:5 *)
  | PMissingElementBase => [PMissingElementBase]
  | PMissingValueElementBase => [PMissingValueElementBase; PMissingElementBase]
                                    (* missing_value_element_base.py:3 *)
  | PMissingField | PMissingEntry => [c; PMissingValueElementBase; PMissingElementBase]
                                    (* missing_field.py:3, missing_fieldset_entry.py:3 *)
  | PMissingEmpty | PMissingFieldset | PMissingList | PMissingSection | PMissingSectionElement =>
      [c; PMissingElementBase]
  end.

Definition obj_class (c : class) : pyclass :=
  match c with
  | CSection => PSection | CSectionElement => PSectionElement | CElement => PElement | CFieldset => PFieldset
  | CList => PList | CField => PField | CEmpty => PEmpty | CEntry => PEntry | CItem => PItem
  end.
Definition missing_class (k : mkind) : pyclass :=
  match k with
  | MKElement => PMissingSectionElement | MKEmpty => PMissingEmpty | MKField => PMissingField
  | MKFieldset => PMissingFieldset | MKList => PMissingList | MKSection => PMissingSection | MKEntry => PMissingEntry
  end.

(** the methods of the class bodies *)
Definition natives : list (pyclass * list text) :=
  [ (PElementBase,              (* element_base.py *)
      [U"__init__"; U"_comment"; U"_key"; U"comment_error"; U"error"; U"key"; U"key_error"; U"optional_comment";
       U"optional_string_comment"; U"raw"; U"required_comment"; U"required_string_comment"; U"string_key"; U"touch"]);
    (PValueElementBase,         (* value_element_base.py *)
      [U"_print_value"; U"_value"; U"optional_string_value"; U"optional_value"; U"required_string_value";
       U"required_value"; U"value_error"]);
    (PField,                    (* field.py *)
      [U"__repr__"; U"_value"; U"optional_string_value"; U"optional_value"; U"parent"; U"required_string_value";
       U"required_value"]);
    (PEntry, [U"__repr__"; U"parent"]);          (* fieldset_entry.py *)
    (PItem, [U"__repr__"; U"parent"]);           (* list_item.py *)
    (PEmpty, [U"__repr__"; U"parent"]);          (* empty.py *)
    (PList,                     (* list.py *)
      [U"__repr__"; U"_instantiate_items"; U"_items"; U"_untouched"; U"items"; U"length"; U"optional_string_values";
       U"optional_values"; U"parent"; U"required_string_values"; U"required_values"; U"touch"]);
    (PFieldset,                 (* fieldset.py *)
      [U"__init__"; U"__repr__"; U"_entries"; U"_entry"; U"_instantiate_entries"; U"_missingError"; U"_untouched";
       U"all_entries_required"; U"assert_all_touched"; U"entries"; U"entry"; U"optional_entry"; U"parent";
       U"required_entry"; U"touch"]);
    (PSection,                  (* section.py *)
      [U"__init__"; U"__repr__"; U"_element"; U"_elements"; U"_empty"; U"_field"; U"_fieldset"; U"_instantiate_elements";
       U"_list"; U"_missing_error"; U"_section"; U"_untouched"; U"all_elements_required"; U"assert_all_touched";
       U"element"; U"elements"; U"empty"; U"field"; U"fields"; U"fieldset"; U"fieldsets"; U"list"; U"lists";
       U"optional_element"; U"optional_empty"; U"optional_field"; U"optional_fieldset"; U"optional_list";
       U"optional_section"; U"parent"; U"required_element"; U"required_empty"; U"required_field";
       U"required_fieldset"; U"required_list"; U"required_section"; U"section"; U"sections"; U"touch"]);
    (PSectionElement,           (* section_element.py *)
      [U"__repr__"; U"_untouched"; U"to_empty"; U"to_field"; U"to_fieldset"; U"to_list"; U"to_section"; U"touch";
       U"yields_empty"; U"yields_field"; U"yields_fieldset"; U"yields_list"; U"yields_section"]);
    (PElement,                  (* element.py *)
      [U"__repr__"; U"to_fieldset_entry"; U"to_list_item"; U"yields_fieldset_entry"; U"yields_list_item"]);
    (PMissingElementBase,       (* missing_element_base.py *)
      [U"__init__"; U"_missing_error"; U"key"; U"optional_comment"; U"optional_string_comment"; U"raw";
       U"required_comment"; U"required_string_comment"; U"string_key"]);
    (PMissingValueElementBase,  (* missing_value_element_base.py *)
      [U"optional_string_value"; U"optional_value"; U"required_string_value"; U"required_value"]);
    (PMissingEmpty, [U"__repr__"]);              (* missing_empty.py *)
    (PMissingField, [U"__repr__"]);              (* missing_field.py *)
    (PMissingEntry, [U"__repr__"]);              (* missing_fieldset_entry.py *)
    (PMissingFieldset,          (* missing_fieldset.py *)
      [U"__repr__"; U"entries"; U"entry"; U"optional_entry"; U"required_entry"]);
    (PMissingList,              (* missing_list.py *)
      [U"__repr__"; U"items"; U"optional_string_values"; U"optional_values"; U"required_string_values";
       U"required_values"]);
    (PMissingSection,           (* missing_section.py *)
      [U"__repr__"; U"element"; U"elements"; U"empty"; U"field"; U"fields"; U"fieldset"; U"fieldsets"; U"list"; U"lists";
       U"optional_element"; U"optional_empty"; U"optional_field"; U"optional_fieldset"; U"optional_list";
       U"optional_section"; U"required_element"; U"required_empty"; U"required_field"; U"required_fieldset";
       U"required_list"; U"required_section"; U"section"; U"sections"]);
    (PMissingSectionElement,    (* missing_section_element.py *)
      [U"__repr__"; U"to_empty"; U"to_field"; U"to_fieldset"; U"to_list"; U"to_section"; U"yields_empty";
       U"yields_field"; U"yields_fieldset"; U"yields_list"; U"yields_section"]) ].

(** the accessors that take a loader: [key], [optional_comment] / [required_comment], ... *)
Inductive accessor := AKey | AComment (required : bool) | AValue (required : bool) | AValues (required : bool).
Definition prefix_of (required : bool) : text := if required then U"required_" else U"optional_".
(** the name of the accessor that takes the loader *)
Definition generic (a : accessor) : text :=
  match a with
  | AKey => U"key"
  | AComment q => prefix_of q ++ U"comment"
  | AValue q => prefix_of q ++ U"value"
  | AValues q => prefix_of q ++ U"values"
  end.
(** the f-strings of register.py:14-27 *)
Definition attr (a : accessor) (name : text) : text :=
  match a with
  | AKey => name ++ U"_key"
  | AComment q => prefix_of q ++ name ++ U"_comment"
  | AValue q => prefix_of q ++ name ++ U"_value"
  | AValues q => prefix_of q ++ name ++ U"_values"
  end.
Definition accessors : list accessor :=
  [AKey; AComment false; AComment true; AValue false; AValue true; AValues false; AValues true].
(** the classes the attributes are set on: register.py:14-20 and 21-27 *)
Definition owner (a : accessor) : pyclass :=
  match a with AKey | AComment _ => PElementBase | AValue _ => PValueElementBase | AValues _ => PList end.
Definition missing_owner (a : accessor) : pyclass :=
  match a with AKey | AComment _ => PMissingElementBase | AValue _ => PMissingValueElementBase | AValues _ => PMissingList end.

Definition index_of (name : text) (names : accessor -> text) : option accessor :=
  find (fun a => text_eqb name (names a)) accessors.

Section Values.
  Context {V : Type} (str : text -> V).

  (** A method: one of a class body, or a lambda of [register] that calls an accessor with a function. *)
  Inductive method := Native (c : pyclass) (name : text) | Using (a : accessor) (f : loader V).

  (** The attributes of the classes; the first entry for a class and name is the one in force. *)
  Definition table := list (pyclass * text * method).
  Definition initial : table := flat_map (fun p => map (fun n => (fst p, n, Native (fst p) n)) (snd p)) natives.
  Definition setattr (t : table) (c : pyclass) (n : text) (m : method) : table := (c, n, m) :: t.

  Fixpoint in_class (t : table) (c : pyclass) (n : text) : option method :=
    match t with
    | [] => None
    | (c', n', m) :: t' => if pyclass_eqb c c' && text_eqb n n' then Some m else in_class t' c n
    end.
  Fixpoint lookup_in (t : table) (l : list pyclass) (n : text) : option method :=
    match l with
    | [] => None
    | c :: l' => match in_class t c n with Some m => Some m | None => lookup_in t l' n end
    end.
  Definition getattr (t : table) (c : pyclass) (n : text) : option method := lookup_in t (mro c) n.

  (** register.py:14-20 *)
  Definition set_loader (n : text) (f : loader V) (t : table) (a : accessor) : table :=
    setattr t (owner a) (attr a n) (Using a f).
  (** register.py:21-27 *)
  Definition set_missing (n : text) (t : table) (a : accessor) : res table :=
    match getattr t (missing_owner a) (attr a (U"string")) with
    | Some m => Ok (setattr t (missing_owner a) (attr a n) m)
    | None => Raise AttributeError
    end.
  (** register.py:10-27 *)
  Definition register_one (t : table) (d : text * loader V) : res table :=
    foldM (set_missing (fst d)) accessors (fold_left (set_loader (fst d) (snd d)) accessors t).

  (** a positional argument: a callable with its [__name__], or a dictionary *)
  Inductive definition := Callable (name : text) (f : loader V) | Dict (l : list (text * loader V)).
  (** register.py:31-40 *)
  Definition register (defs : list definition) (kwargs : list (text * loader V)) (t : table) : res table :=
    do t' <- foldM (fun t d => match d with
                               | Callable n f => register_one t (n, f)
                               | Dict l => foldM register_one l t
                               end) defs t;
    foldM register_one kwargs t'.
  (** several calls of [register] *)
  Definition registers (calls : list (list definition * list (text * loader V))) : res table :=
    foldM (fun t d => register (fst d) (snd d) t) calls initial.

  (** * Calling a method *)
  Inductive target := TObj (o : nat) | TMissing (m : missing).
  Inductive answer := One (v : option V) | Many (l : list (option V)) | Elsewhere (c : pyclass) (name : text).

  Definition target_class (x : target) : sM pyclass :=
    match x with
    | TObj o => let! y := the_obj o in ret (obj_class (o_class y))
    | TMissing (Missing k _ _) => ret (missing_class k)
    end.
  Definition one (v : option V) : sM answer := ret (One v).
  Definition string_value : loader V := fun t => LOk (str t).

  (** the accessors of missing elements: missing_element_base.py:9-31, missing_value_element_base.py:4-14,
      missing_list.py:13-23; with or without a loader *)
  Definition missing_native (m : missing) (a : accessor) : sM answer :=
    match a with
    | AKey => missing_key m
    | AComment q => let! v := missing_comment m q in one v
    | AValue q => let! v := missing_value m q in one v
    | AValues q => let! l := missing_list_values m q in ret (Many l)
    end.

  (** [x.name()] or [x.name(arg)].  The fuel bounds the depth of the calls: running out of it is
      Python's RecursionError. *)
  Fixpoint call_method (fuel : nat) (t : table) (x : target) (name : text) (arg : option (loader V)) : sM answer :=
    match fuel with
    | O => raise Fuel
    | S f =>
        let! c := target_class x in
        match x, text_eqb name (U"_key") with
        | TMissing _, true => raise TypeError       (* the instance attribute of missing_element_base.py:3 *)
        | _, _ =>
            match getattr t c name with
            | None => raise AttributeError
            | Some (Using a g) =>
                match arg with
                | Some _ => raise TypeError
                | None => call_method f t x (generic a) (Some g)
                end
            | Some (Native c' n) =>
                match x with
                | TMissing m =>
                    match arg, index_of n generic, index_of n (fun a => attr a (U"string")) with
                    | Some _, Some a, _ => missing_native m a
                    | None, _, Some a => missing_native m a
                    | None, Some _, _ => raise TypeError
                    | Some _, _, Some _ => raise TypeError
                    | _, None, None => ret (Elsewhere c' n)
                    end
                | TObj o =>
                    (* [self._key()]: element_base.py:51, 79 *)
                    let own_key : sM text :=
                      match getattr t c (U"_key") with
                      | None => raise AttributeError
                      | Some (Native _ _) => plain_key o
                      | Some (Using a g) => let! _ := call_method f t x (generic a) (Some g) in raise Fuel
                                            (* [self.key(g)] calls [self._key()] again: it never returns *)
                      end in
                    if text_eqb n (U"_key") then
                      match arg with None => let! k := plain_key o in one (Some (str k)) | Some _ => raise TypeError end
                    else
                      match arg, index_of n generic, index_of n (fun a => attr a (U"string")) with
                      | Some g, Some a, _ =>
                          match a with
                          | AKey =>                  (* element_base.py:47-53 *)
                              touch_obj o ;;
                              let! y := the_obj o in
                              let! k := own_key in
                              let! v := run_loader g k (fun m c => v_key_error c m (o_instr y)) in one (Some v)
                          | AComment q => let! v := comment_of o g q in one v
                                                     (* element_base.py:61-62, 70-71 *)
                          | AValue q => let! v := value_of o g q in one v
                                                     (* value_element_base.py:41-42, 47-48; field.py:35-36, 44-45 *)
                          | AValues q =>             (* list.py:49-52, 62-65 *)
                              let! l := list_items o in
                              let! vs := mapM (fun i =>
                                let! r := call_method f t (TObj i) (generic (AValue q)) (Some g) in
                                match r with One v => ret v | _ => raise TypeError end) l in
                              ret (Many vs)
                          end
                      | None, _, Some a =>
                          match a with
                          | AKey =>                  (* element_base.py:76-79 *)
                              touch_obj o ;; let! k := own_key in one (Some (str k))
                          | AComment q => let! v := comment_of o string_value q in one v
                                                     (* element_base.py:64-65, 73-74 *)
                          | AValue q => let! v := value_of o string_value q in one v
                                                     (* value_element_base.py:38-39, 44-45; field.py:32-33, 41-42 *)
                          | AValues q =>             (* list.py:44-47, 57-60 *)
                              let! l := list_items o in
                              let! vs := mapM (fun i =>
                                let! r := call_method f t (TObj i) (attr (AValue q) (U"string")) None in
                                match r with One v => ret v | _ => raise TypeError end) l in
                              ret (Many vs)
                          end
                      | None, Some _, _ => raise TypeError
                      | Some _, _, Some _ => raise TypeError
                      | _, None, None => ret (Elsewhere c' n)
                      end
                end
            end
        end
    end.
End Values.
Arguments method : clear implicits.
Arguments table : clear implicits.
Arguments definition : clear implicits.
Arguments answer : clear implicits.
