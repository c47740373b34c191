(** Elements: model of [elements/*.py] and [elements/missing/*.py].

    Python objects handed out by the API live in an object store; an object is referenced by its
    number, so "the same object" is equality of numbers.  Modelled: all methods.  [Element] (only
    produced by lookup and passed to message callbacks) is [CElement]. *)
From Verif Require Import Base Types Messages Analyzer Resolver Reporter Errors Context.

Inductive class :=
| CSection | CSectionElement | CElement | CFieldset | CList | CField | CEmpty | CEntry | CItem.
Definition class_eqb (a b : class) : bool :=
  match a, b with
  | CSection, CSection | CSectionElement, CSectionElement | CElement, CElement
  | CFieldset, CFieldset | CList, CList | CField, CField | CEmpty, CEmpty | CEntry, CEntry
  | CItem, CItem => true
  | _, _ => false
  end.

(** element_base.py:5-8 plus the attributes set later ([hasattr] = [true] / [Some]). *)
Record obj := MkObj {
  o_class : class;
  o_instr : nat;                              (* _instruction *)
  o_parent : option nat;                      (* _parent *)
  o_touched : bool;                           (* _touched *)
  o_req : bool;                               (* _all_elements_required / _all_entries_required *)
  o_children : option (list nat);             (* _instantiated_elements / _entries / _items *)
  o_map : list (text * list nat);             (* _instantiated_elements_map / _entries_map *)
  o_yielded : option itype;                   (* _yielded *)
  o_empty : option nat;
  o_field : option nat;
  o_fieldset : option nat;
  o_list : option nat;
  o_section : option nat
}.

Definition with_touched (o : obj) : obj :=
  MkObj (o_class o) (o_instr o) (o_parent o) true (o_req o) (o_children o) (o_map o)
        (o_yielded o) (o_empty o) (o_field o) (o_fieldset o) (o_list o) (o_section o).
Definition with_req (b : bool) (o : obj) : obj :=
  MkObj (o_class o) (o_instr o) (o_parent o) (o_touched o) b (o_children o) (o_map o)
        (o_yielded o) (o_empty o) (o_field o) (o_fieldset o) (o_list o) (o_section o).
Definition with_children (l : list nat) (m : list (text * list nat)) (o : obj) : obj :=
  MkObj (o_class o) (o_instr o) (o_parent o) (o_touched o) (o_req o) (Some l) m
        (o_yielded o) (o_empty o) (o_field o) (o_fieldset o) (o_list o) (o_section o).

(** The kinds a section element can be yielded as. *)
Inductive kind := KEmpty | KField | KFieldset | KList | KSection.

Definition kind_class (k : kind) : class :=
  match k with KEmpty => CEmpty | KField => CField | KFieldset => CFieldset | KList => CList
             | KSection => CSection end.
(** value stored in [_yielded] *)
Definition kind_type (k : kind) : itype :=
  match k with KEmpty => EMPTY_ELEMENT | KField => FIELD | KFieldset => FIELDSET | KList => LIST
             | KSection => SECTION end.
Definition yield_slot (k : kind) (o : obj) : option nat :=
  match k with KEmpty => o_empty o | KField => o_field o | KFieldset => o_fieldset o
             | KList => o_list o | KSection => o_section o end.
Definition with_yield (k : kind) (x : nat) (o : obj) : obj :=
  MkObj (o_class o) (o_instr o) (o_parent o) (o_touched o) (o_req o) (o_children o) (o_map o)
        (Some (kind_type k))
        (match k with KEmpty => Some x | _ => o_empty o end)
        (match k with KField => Some x | _ => o_field o end)
        (match k with KFieldset => Some x | _ => o_fieldset o end)
        (match k with KList => Some x | _ => o_list o end)
        (match k with KSection => Some x | _ => o_section o end).

(** section_element.py:118-135 (the yields methods) *)
Definition accepts (k : kind) (t : itype) : bool :=
  match k, t with
  | KEmpty, EMPTY_ELEMENT => true
  | KField, (FIELD | MULTILINE_FIELD_BEGIN | EMPTY_ELEMENT) => true
  | KFieldset, (FIELDSET | EMPTY_ELEMENT) => true
  | KList, (LIST | EMPTY_ELEMENT) => true
  | KSection, SECTION => true
  | _, _ => false
  end.

Definition store := list obj.
Record st := MkSt { s_ctx : ctx; s_objs : store }.
Definition no_obj : obj := MkObj CElement 0 None false false None [] None None None None None None.
Definition oget (s : st) (i : nat) : obj := nth i (s_objs s) no_obj.
Definition upd_obj (i : nat) (f : obj -> obj) (s : st) : st :=
  MkSt (s_ctx s) (upd (s_objs s) i f).

Definition sM := M st.
Definition the_obj (i : nat) : sM obj := fun s => (s, Ok (oget s i)).
Definition the_ctx : sM ctx := fun s => (s, Ok (s_ctx s)).
Definition oset (i : nat) (f : obj -> obj) : sM unit := fun s => (upd_obj i f s, Ok tt).
Definition alloc (o : obj) : sM nat := fun s => (MkSt (s_ctx s) (s_objs s ++ [o]), Ok (length (s_objs s))).
(** run a context accessor (which updates the instruction caches) *)
Definition on_heap {A} (f : hM A) : sM A :=
  fun s => let '(h, r) := f (c_heap (s_ctx s)) in (MkSt (with_heap (s_ctx s) h) (s_objs s), r).
Definition inode (i : nat) : sM node := fun s => (s, Ok (hget (c_heap (s_ctx s)) i)).
Definition touch_obj (i : nat) : sM unit := oset i with_touched.
(** raise the ValidationError built by the context *)
Definition fail {A} (f : ctx -> res eno_error) : sM A :=
  let! c := the_ctx in
  match f c with Ok e => raise (ValidationError e) | Raise x => raise x end.
Definition hfuel : sM nat := fun s => (s, Ok (S (length (c_heap (s_ctx s))))).
(** fuel for descending into yielded section objects: an object is newer than the one it is under *)
Definition ofuel : sM nat := fun s => (s, Ok (S (length (s_objs s)))).

(** element_base.py:5-8; section.py:13-16; fieldset.py:9-12: constructing an object.  Sections
    and fieldsets inherit the 'all required' flag of their parent object. *)
Definition new_obj (cl : class) (instr : nat) (parent : option nat) : sM nat :=
  fun s =>
    let req := match cl, parent with
               | (CSection | CFieldset), Some p => o_req (oget s p)
               | _, _ => false
               end in
    alloc (MkObj cl instr parent false req None [] None None None None None None) s.

(** parse.py:4-7 *)
Definition parse (inp : text) (loc : locale) (rk : reporter_kind) (source : option text)
  : res (st * nat) :=
  match parse_context inp loc rk source with
  | Raise e => Raise e
  | Ok c => Ok (MkSt c [MkObj CSection 0 None false false None [] None None None None None None], 0)
  end.

(** * Section *)

(** section.py:161-169 (and fieldset.py:56-64): instantiate one child and index it by its key *)
Definition instantiate_child (cl : class) (owner : nat) (e : nat) : sM nat :=
  let! x := new_obj cl e (Some owner) in
  let! n := inode e in
  let! k := lift (key_or (n_key n)) in
  oset owner (fun o => MkObj (o_class o) (o_instr o) (o_parent o) (o_touched o) (o_req o) (o_children o)
                (assoc_upd k (fun l => l ++ [x]) [x] (o_map o))
                (o_yielded o) (o_empty o) (o_field o) (o_fieldset o) (o_list o) (o_section o)) ;;
  ret x.

Definition append_children (owner : nat) (xs : list nat) : sM unit :=
  oset owner (fun o => with_children (match o_children o with Some l => l ++ xs | None => xs end)
                                     (o_map o) o).

(** [[e for e in l if e['key'] not in self._instantiated_..._map]] *)
Definition not_indexed (owner : nat) (l : list nat) : sM (list nat) :=
  fun s => (s, Ok (filter (fun e => negb (opt_is (assoc (key_of (c_heap (s_ctx s)) e)
                                                        (o_map (oget s owner))))) l)).

(** section.py:157-175 *)
Fixpoint instantiate_elements (fuel : nat) (o : nat) (s : nat) : sM unit :=
  match fuel with
  | O => raise Fuel
  | S f =>
      let! n := inode s in
      match n_mirror n with
      | Some m => instantiate_elements f o m
      | None =>
          let! filtered := not_indexed o (n_elements n) in
          let! xs := mapM (instantiate_child CSectionElement o) filtered in
          append_children o xs ;;
          match n_extend n with
          | Some t => instantiate_elements f o t
          | None => ret tt
          end
      end
  end.

(** section.py:51-57 *)
Definition section_children (o : nat) : sM (list nat) :=
  let! x := the_obj o in
  match o_children x with
  | Some l => ret l
  | None =>
      oset o (with_children [] []) ;;
      let! f := hfuel in
      instantiate_elements f o (o_instr x) ;;
      let! x := the_obj o in
      ret (match o_children x with Some l => l | None => [] end)
  end.

(** fieldset.py:52-72 *)
Fixpoint instantiate_entries (fuel : nat) (o : nat) (s : nat) : sM unit :=
  match fuel with
  | O => raise Fuel
  | S f =>
      let! n := inode s in
      match n_mirror n with
      | Some m => instantiate_entries f o m
      | None =>
          match n_entries n with
          | None => ret tt
          | Some es =>
              let! filtered := not_indexed o es in
              let! xs := mapM (instantiate_child CEntry o) filtered in
              (match n_extend n with
               | Some t => instantiate_entries f o t
               | None => ret tt
               end) ;;
              append_children o xs
          end
      end
  end.

(** fieldset.py:17-23 *)
Definition fieldset_children (o : nat) : sM (list nat) :=
  let! x := the_obj o in
  match o_children x with
  | Some l => ret l
  | None =>
      oset o (with_children [] []) ;;
      let! f := hfuel in
      instantiate_entries f o (o_instr x) ;;
      let! x := the_obj o in
      ret (match o_children x with Some l => l | None => [] end)
  end.

(** list.py:10-18 *)
Fixpoint instantiate_items (fuel : nat) (o : nat) (s : nat) : sM (list nat) :=
  match fuel with
  | O => raise Fuel
  | S f =>
      let! n := inode s in
      match n_mirror n with
      | Some m => instantiate_items f o m
      | None =>
          match n_extend n with
          | Some t =>
              let! l := instantiate_items f o t in
              let! own := lift (key_or (n_items n)) in
              let! xs := mapM (fun i => new_obj CItem i (Some o)) own in
              ret (l ++ xs)
          | None =>
              match n_items n with
              | Some own => mapM (fun i => new_obj CItem i (Some o)) own
              | None => ret []
              end
          end
      end
  end.

(** list.py:20-24 *)
Definition list_children (o : nat) : sM (list nat) :=
  let! x := the_obj o in
  match o_children x with
  | Some l => ret l
  | None =>
      let! f := hfuel in
      let! l := instantiate_items f o (o_instr x) in
      oset o (fun x => with_children l (o_map x) x) ;;
      ret l
  end.

(** section.py:27-31 and its repetitions; fieldset.py:28-32.  An empty key counts as no key. *)
Definition by_key (children : nat -> sM (list nat)) (o : nat) (key : option text) : sM (list nat) :=
  match key with
  | Some (c :: k) =>
      let! _ := children o in
      let! x := the_obj o in
      ret (match assoc (c :: k) (o_map x) with Some l => l | None => [] end)
  | _ => children o
  end.

(** * Missing elements *)
Inductive mkind := MKElement | MKEmpty | MKField | MKFieldset | MKList | MKSection | MKEntry.
Inductive missing := Missing (k : mkind) (key : option text) (parent : mparent)
with mparent := PObject (o : nat) | PMissing (m : missing).

(** Results of single element queries. *)
Inductive found := FObj (o : nat) | FMissing (m : missing) | FNone.

Definition missing_msg (k : kind) : qmsg :=
  match k with KEmpty => Q_missing_empty | KField => Q_missing_field | KFieldset => Q_missing_fieldset
             | KList => Q_missing_list | KSection => Q_missing_section end.
Definition single_msg (k : kind) : qmsg :=
  match k with KEmpty => Q_expected_single_empty | KField => Q_expected_single_field
             | KFieldset => Q_expected_single_fieldset | KList => Q_expected_single_list
             | KSection => Q_expected_single_section end.
Definition expected_msg (k : kind) : qmsg :=
  match k with KEmpty => Q_expected_empty | KField => Q_expected_field
             | KFieldset => Q_expected_fieldset | KList => Q_expected_list
             | KSection => Q_expected_section end.
Definition plural_msg (k : kind) : qmsg :=
  match k with KField => Q_expected_fields | KFieldset => Q_expected_fieldsets
             | KList => Q_expected_lists | KSection => Q_expected_sections
             | KEmpty => Q_expected_empty (* there is no empties() *) end.
Definition kind_missing (k : kind) : mkind :=
  match k with KEmpty => MKEmpty | KField => MKField | KFieldset => MKFieldset | KList => MKList
             | KSection => MKSection end.

(** section_element.py:34-96.  [to_section] has no 'already yielded' check. *)
Definition to_kind (k : kind) (e : nat) : sM nat :=
  let! o := the_obj e in
  match yield_slot k o with
  | Some x => ret x
  | None =>
      (match k, o_yielded o with
       | KSection, _ | _, None => ret tt
       | _, Some _ => raise TypeError
       end) ;;
      let! n := inode (o_instr o) in
      if accepts k (n_type n) then
        let! x := new_obj (kind_class k) (o_instr o) (o_parent o) in
        oset e (with_yield k x) ;; ret x
      else fail (fun c => v_unexpected_element_type c None (o_instr o) (expected_msg k))
  end.

(** section.py:24-49 (what = None), 59-155, 177-207, 221-251 (what = Some kind).
    [required]: None = default, Some b = explicit. *)
Definition query (what : option kind) (o : nat) (key : option text) (required : option bool) : sM found :=
  touch_obj o ;;
  let! els := by_key section_children o key in
  let! x := the_obj o in
  match els with
  | [] =>
      if (match required with Some true => true | _ => false end) || o_req x then
        fail (fun c => v_missing_element c key (o_instr x)
                         (match what with None => Q_missing_element | Some k => missing_msg k end))
      else
        match required with
        | None => ret (FMissing (Missing (match what with None => MKElement | Some k => kind_missing k end)
                                         key (PObject o)))
        | Some _ => ret FNone
        end
  | [e] =>
      match what with
      | None => ret (FObj e)
      | Some k =>
          let! ox := the_obj e in
          let! n := inode (o_instr ox) in
          if accepts k (n_type n) then let! y := to_kind k e in ret (FObj y)
          else fail (fun c => v_unexpected_element_type c key (o_instr ox) (expected_msg k))
      end
  | _ =>
      let! s := get in
      fail (fun c => v_unexpected_multiple_elements c key (map (fun e => o_instr (oget s e)) els)
                       (match what with None => Q_expected_single_element | Some k => single_msg k end))
  end.

(** section.py:292-299 *)
Definition section_elements (o : nat) (key : option text) : sM (list nat) :=
  touch_obj o ;; by_key section_children o key.

(** section.py:307-324, 329-344, 349-364, 411-426 *)
Definition plural (k : kind) (o : nat) (key : option text) : sM (list nat) :=
  touch_obj o ;;
  let! els := by_key section_children o key in
  mapM (fun e =>
    let! ox := the_obj e in
    let! n := inode (o_instr ox) in
    if accepts k (n_type n) then to_kind k e
    else fail (fun c => v_unexpected_element_type c key (o_instr ox) (plural_msg k))) els.

(** section.py:209-219 *)
Definition missing_error_msg (k : mkind) : qmsg :=
  match k with
  | MKField => Q_missing_field
  | MKFieldset => Q_missing_fieldset
  | MKList => Q_missing_list
  | MKSection => Q_missing_section
  | _ => Q_missing_element
  end.

(** missing_element_base.py:6-7: [_parent._missing_error(self)]: the error climbs to the real
    parent object.  A [Fieldset] has no [_missing_error] method (fieldset.py:74 is misspelt). *)
Fixpoint missing_error {A} (m : missing) : sM A :=
  match m with
  | Missing k key p =>
      match p with
      | PMissing m' => missing_error m'
      | PObject o =>
          let! x := the_obj o in
          match o_class x with
          | CSection => fail (fun c => v_missing_element c key (o_instr x) (missing_error_msg k))
          | _ => raise AttributeError
          end
      end
  end.

(** missing_section.py:16-88: section(key), field(key), ... on a missing section *)
Definition missing_query (what : option kind) (m : missing) (key : option text) (required : option bool)
  : sM found :=
  match required with
  | None => ret (FMissing (Missing (match what with None => MKElement | Some k => kind_missing k end)
                                   key (PMissing m)))
  | Some false => ret FNone
  | Some true => missing_error m
  end.

(** missing_section_element.py:15-28 *)
Definition missing_to_kind (k : kind) (m : missing) : missing :=
  match m with Missing _ key p => Missing (kind_missing k) key p end.

(** missing_fieldset.py:11-21 *)
Definition missing_entry (m : missing) (key : option text) (required : option bool) : sM found :=
  match required with
  | None => ret (FMissing (Missing MKEntry key (PMissing m)))
  | Some false => ret FNone
  | Some true => missing_error m
  end.

(** * Fieldset *)

(** fieldset.py:25-50.  [required] has default False (unlike section queries), so
    [required = None] (a [MissingFieldsetEntry]) only happens with an explicit None. *)
Definition entry_query (o : nat) (key : option text) (required : option bool) : sM found :=
  touch_obj o ;;
  let! els := by_key fieldset_children o key in
  let! x := the_obj o in
  match els with
  | [] =>
      if (match required with Some true => true | _ => false end) || o_req x then
        fail (fun c => v_missing_element c key (o_instr x) Q_missing_fieldset_entry)
      else
        match required with
        | None => ret (FMissing (Missing MKEntry key (PObject o)))
        | Some _ => ret FNone
        end
  | [e] => ret (FObj e)
  | _ =>
      let! s := get in
      fail (fun c => v_unexpected_multiple_elements c key (map (fun e => o_instr (oget s e)) els)
                       Q_expected_single_fieldset_entry)
  end.
(** fieldset.py:111-121: entry / optional_entry / required_entry *)
Definition fieldset_entry (o : nat) (key : option text) : sM found := entry_query o key (Some false).
Definition fieldset_optional_entry (o : nat) (key : option text) : sM found := entry_query o key (Some false).
Definition fieldset_required_entry (o : nat) (key : option text) : sM found := entry_query o key (Some true).

(** fieldset.py:102-109 *)
Definition fieldset_entries (o : nat) (key : option text) : sM (list nat) :=
  touch_obj o ;; by_key fieldset_children o key.

(** fieldset.py:85-86 *)
Definition all_entries_required (o : nat) (required : bool) : sM unit := oset o (with_req required).

(** * Values, comments, keys *)

(** Result of calling a user supplied loader: a value, ValueError(message), another exception. *)
Inductive lres (A : Type) := LOk (a : A) | LValueError (message : text) | LOther (n : N).
Arguments LOk {A} _. Arguments LValueError {A} _. Arguments LOther {A} _.
Definition loader (A : Type) := text -> lres A.
(** No loader: the text itself. *)
Definition string_loader : loader text := LOk.

Definition run_loader {A} (ld : loader A) (t : text) (err : text -> ctx -> res eno_error) : sM A :=
  match ld t with
  | LOk a => ret a
  | LValueError m => fail (err m)
  | LOther n => raise (UserExn n)
  end.

(** field.py:9-28, value_element_base.py:17-36 *)
Definition value_of {A} (o : nat) (ld : loader A) (required : bool) : sM (option A) :=
  touch_obj o ;;
  let! x := the_obj o in
  let! c := the_ctx in
  let! f := hfuel in
  let! v := on_heap (value (c_input c) f (o_instr x)) in
  match v with
  | None => if required then fail (fun c => v_missing_value c (o_instr x)) else ret None
  | Some t => let! a := run_loader ld t (fun m c => v_value_error c m (o_instr x)) in ret (Some a)
  end.

(** element_base.py:10-27; an empty comment counts as none *)
Definition comment_of {A} (o : nat) (ld : loader A) (required : bool) : sM (option A) :=
  touch_obj o ;;
  let! x := the_obj o in
  let! v := on_heap (comment (o_instr x)) in
  match v with
  | Some (ch :: t) =>
      let! a := run_loader ld (ch :: t) (fun m c => v_comment_error c m (o_instr x)) in ret (Some a)
  | _ => if required then fail (fun c => v_missing_comment c (o_instr x)) else ret None
  end.

(** element_base.py:29-33 *)
Definition plain_key (o : nat) : sM text :=
  let! x := the_obj o in
  let! n := inode (o_instr x) in
  if itype_eqb (n_type n) LIST_ITEM then
    let! p := lift (key_or (n_parent n)) in
    let! pn := inode p in
    lift (key_or (n_key pn))
  else lift (key_or (n_key n)).

(** element_base.py:47-53, 76-79 *)
Definition key_with {A} (o : nat) (ld : loader A) : sM A :=
  touch_obj o ;;
  let! x := the_obj o in
  let! k := plain_key o in
  run_loader ld k (fun m c => v_key_error c m (o_instr x)).
Definition string_key (o : nat) : sM text := touch_obj o ;; plain_key o.

(** list.py:34-70 *)
Definition list_items (o : nat) : sM (list nat) := touch_obj o ;; list_children o.
Definition list_length (o : nat) : sM nat := let! l := list_items o in ret (length l).
Definition list_values {A} (o : nat) (ld : loader A) (required : bool) : sM (list (option A)) :=
  let! l := list_items o in mapM (fun i => value_of i ld required) l.

(** element_base.py:67-68 *)
Definition raw_of (o : nat) : sM raw_t :=
  let! x := the_obj o in
  let! c := the_ctx in
  let! f := hfuel in
  on_heap (raw (c_input c) f (o_instr x)).

(** element_base.py:35-45, 55-59; value_element_base.py:50-54: the error constructors (for a
    message given as text; they return the error, they do not raise it) *)
Definition error_of (o : nat) (message : text) : sM eno_error :=
  let! x := the_obj o in let! c := the_ctx in lift (v_element_error c message (o_instr x)).
Definition comment_error_of (o : nat) (message : text) : sM eno_error :=
  let! x := the_obj o in let! c := the_ctx in lift (v_comment_error c message (o_instr x)).
Definition key_error_of (o : nat) (message : text) : sM eno_error :=
  let! x := the_obj o in let! c := the_ctx in lift (v_key_error c message (o_instr x)).
Definition value_error_of (o : nat) (message : text) : sM eno_error :=
  let! x := the_obj o in let! c := the_ctx in lift (v_value_error c message (o_instr x)).

(** Accessors of missing elements: missing_element_base.py:9-31, missing_value_element_base.py,
    missing_list.py. *)
Definition missing_value {A} (m : missing) (required : bool) : sM (option A) :=
  if required then missing_error m else ret None.
Definition missing_comment {A} (m : missing) (required : bool) : sM (option A) :=
  if required then missing_error m else ret None.
Definition missing_key {A} (m : missing) : sM A := missing_error m.
Definition missing_list_values {A} (m : missing) (required : bool) : sM (list (option A)) := ret [].

(** * Touching *)

(** section_element.py:15-32, section.py:253-262, list.py:26-32, fieldset.py:77-83.
    The result is the untouched instruction (Python's False/None is [None]).
    [untouched_section] is section.py, [untouched_element] is section_element.py. *)
Definition untouched_leaf (children : nat -> sM (list nat)) (o : nat) : sM (option nat) :=
  let! x := the_obj o in
  if o_touched x then
    let! l := children o in
    let! s := get in
    ret (match find (fun i => negb (o_touched (oget s i))) l with
         | Some i => Some (o_instr (oget s i))
         | None => None
         end)
  else ret (Some (o_instr x)).

Fixpoint first_some {A} (f : A -> sM (option nat)) (l : list A) : sM (option nat) :=
  match l with
  | [] => ret None
  | x :: l' => let! r := f x in match r with Some i => ret (Some i) | None => first_some f l' end
  end.

Fixpoint untouched_element (fuel : nat) (e : nat) : sM (option nat) :=
  match fuel with
  | O => raise Fuel
  | S f =>
      let! x := the_obj e in
      let! s := get in
      match o_yielded x with
      | None => ret (Some (o_instr x))
      | Some _ =>
          if match o_empty x with Some y => negb (o_touched (oget s y)) | None => false end
          then ret (Some (o_instr x))
          else if match o_field x with Some y => negb (o_touched (oget s y)) | None => false end
          then ret (Some (o_instr x))
          else
            match o_fieldset x with
            | Some y => untouched_leaf fieldset_children y
            | None =>
                match o_list x with
                | Some y => untouched_leaf list_children y
                | None =>
                    match o_section x with
                    | Some y =>
                        let! sx := the_obj y in
                        if o_touched sx then
                          let! l := section_children y in first_some (untouched_element f) l
                        else ret (Some (o_instr sx))
                    | None => ret None
                    end
                end
            end
      end
  end.
(** section.py:253-262 for a section object *)
Definition untouched_section (fuel : nat) (o : nat) : sM (option nat) :=
  let! x := the_obj o in
  if o_touched x then let! l := section_children o in first_some (untouched_element fuel) l
  else ret (Some (o_instr x)).

(** The [message] argument: None, a text, or a callable (modelled as a pure function of the
    reported instruction). *)
Inductive message := MsgNone | MsgText (t : text) | MsgFun (f : nat -> text).
Definition message_text (m : message) (i : nat) : option text :=
  match m with MsgNone => None | MsgText t => Some t | MsgFun f => Some (f i) end.

Definition mem_text (k : text) (l : list text) : bool := existsb (text_eqb k) l.
(** [(skip and key in skip) or (only and key not in only)]: None and [] are falsy *)
Definition skipped (only skip : option (list text)) (k : text) : bool :=
  match skip with Some (x :: l) => mem_text k (x :: l) | _ => false end ||
  match only with Some (x :: l) => negb (mem_text k (x :: l)) | _ => false end.

(** section.py:273-290 *)
Definition assert_all_touched (o : nat) (m : message) (only skip : option (list text)) : sM unit :=
  let! _ := section_children o in
  let! x := the_obj o in
  let! f := ofuel in
  let els := flat_map snd (filter (fun p => negb (skipped only skip (fst p))) (o_map x)) in
  let! r := first_some (untouched_element f) els in
  match r with
  | None => ret tt
  | Some i => fail (fun c => v_unexpected_element c (message_text m i) i)
  end.

(** fieldset.py:88-100; an untouched entry is reported with [entry['instruction']]: TypeError *)
Definition fieldset_assert_all_touched (o : nat) (m : message) (only skip : option (list text)) : sM unit :=
  let! _ := fieldset_children o in
  let! x := the_obj o in
  let! s := get in
  let els := flat_map snd (filter (fun p => negb (skipped only skip (fst p))) (o_map x)) in
  match find (fun i => negb (o_touched (oget s i))) els with
  | None => ret tt
  | Some _ => raise TypeError
  end.

Fixpoint iterM {S A} (f : A -> M S unit) (l : list A) : M S unit :=
  match l with [] => ret tt | x :: l' => f x ;; iterM f l' end.

(** section_element.py:98-116, section.py:428-432, fieldset.py:123-127, list.py:67-71 *)
Definition touch_group (children : nat -> sM (list nat)) (o : nat) : sM unit :=
  touch_obj o ;; let! l := children o in iterM touch_obj l.

Definition touch_slot (f : nat -> sM unit) (x : option nat) : sM unit :=
  match x with Some y => f y | None => ret tt end.

Fixpoint touch_element (fuel : nat) (e : nat) : sM unit :=
  match fuel with
  | O => raise Fuel
  | S f =>
      let! x := the_obj e in
      match o_yielded x with
      | None => ret tt
      | Some _ =>
          touch_slot touch_obj (o_empty x) ;;
          touch_slot touch_obj (o_field x) ;;
          touch_slot (touch_group fieldset_children) (o_fieldset x) ;;
          touch_slot (touch_group list_children) (o_list x) ;;
          touch_slot (fun y => touch_obj y ;; let! l := section_children y in iterM (touch_element f) l)
                     (o_section x)
      end
  end.
Definition touch_section (o : nat) : sM unit :=
  let! f := ofuel in
  touch_obj o ;; let! l := section_children o in iterM (touch_element f) l.

(** section.py:264-271; [element._yielded] on an element never yielded is an AttributeError *)
Fixpoint require_all (fuel : nat) (o : nat) (required : bool) : sM unit :=
  match fuel with
  | O => raise Fuel
  | S f =>
      oset o (with_req required) ;;
      let! l := section_children o in
      iterM (fun e =>
        let! x := the_obj e in
        let! n := inode (o_instr x) in
        match n_type n with
        | SECTION =>
            match o_yielded x with
            | None => raise AttributeError
            | Some _ => let! y := to_kind KSection e in require_all f y required
            end
        | FIELDSET =>
            match o_yielded x with
            | None => raise AttributeError
            | Some _ => let! y := to_kind KFieldset e in all_entries_required y required
            end
        | _ => ret tt
        end) l
  end.

Definition all_elements_required (o : nat) (required : bool) : sM unit :=
  let! f := ofuel in require_all f o required.

(** * parent() *)

(** section.py:384-388; fieldset.py:117-118, list.py:54-55; field.py:34-35, empty.py:10-11,
    fieldset_entry.py:9-10, list_item.py:9-10.  Objects handed out below a section have a parent
    object, which is what is returned; the fallbacks are
    [Section(context, instruction['parent'])] resp. [instruction.parent] (AttributeError). *)
Definition parent_of (o : nat) : sM (option nat) :=
  let! x := the_obj o in
  let! n := inode (o_instr x) in
  match o_class x with
  | CSection =>
      if itype_eqb (n_type n) DOCUMENT then
        match o_parent x with
        | Some p => ret (Some p)
        | None => let! p := lift (key_or (n_parent n)) in
                  let! y := new_obj CSection p None in ret (Some y)
        end
      else ret None
  | CFieldset | CList =>
      match o_parent x with
      | Some p => ret (Some p)
      | None => let! p := lift (key_or (n_parent n)) in
                let! y := new_obj CSection p None in ret (Some y)
      end
  | CField | CEmpty | CEntry | CItem =>
      match o_parent x with
      | Some p => ret (Some p)
      | None => raise AttributeError
      end
  | _ => raise AttributeError   (* SectionElement / Element have no parent() *)
  end.

(** * repr() *)

(** value_element_base.py:6-15; no value and the empty value print alike, and the [replace] at the
    end replaces line breaks by themselves *)
Definition print_value (o : nat) : sM text :=
  let! x := the_obj o in
  let! c := the_ctx in
  let! f := hfuel in
  let! v := on_heap (value (c_input c) f (o_instr x)) in
  ret (match v with
       | None | Some [] => U "None"
       | Some t => if Nat.ltb 14 (length t) then firstn 11 t ++ U "..." else t
       end).

(** section.py:18-22, fieldset.py:14-15, list.py:7-8, field.py:7-8, empty.py:6-7,
    fieldset_entry.py:6-7, list_item.py:6-7, section_element.py:12-13, element.py:10-11 *)
Definition print_of (o : nat) : sM text :=
  let! x := the_obj o in
  let! n := inode (o_instr x) in
  match o_class x with
  | CSection =>
      if itype_eqb (n_type n) DOCUMENT then
        let! l := section_children o in ret (U "<class Section document elements=" ++ dec (length l) ++ U ">")
      else
        let! k := lift (key_or (n_key n)) in
        let! l := section_children o in ret (U "<class Section key=""" ++ k ++ U """ elements=" ++ dec (length l) ++ U ">")
  | CFieldset =>
      let! k := lift (key_or (n_key n)) in
      let! l := fieldset_children o in ret (U "<class Fieldset key=" ++ k ++ U " entries=" ++ dec (length l) ++ U ">")
  | CList =>
      let! k := lift (key_or (n_key n)) in
      let! l := list_children o in ret (U "<class List key=" ++ k ++ U " items=" ++ dec (length l) ++ U ">")
  | CField =>
      let! k := lift (key_or (n_key n)) in
      let! v := print_value o in ret (U "<class Field key=" ++ k ++ U " value=" ++ v ++ U ">")
  | CEntry =>
      let! k := lift (key_or (n_key n)) in
      let! v := print_value o in ret (U "<class FieldsetEntry key=" ++ k ++ U " value=" ++ v ++ U ">")
  | CItem => let! v := print_value o in ret (U "<class ListItem value=" ++ v ++ U ">")
  | CEmpty => let! k := lift (key_or (n_key n)) in ret (U "<class Empty key=" ++ k ++ U ">")
  | CSectionElement => let! k := lift (key_or (n_key n)) in ret (U "<class SectionElement key=" ++ k ++ U ">")
  | CElement => let! k := lift (key_or (n_key n)) in ret (U "<class Element key=" ++ k ++ U ">")
  end.

(** missing_section_element.py:9-13, missing_empty.py:4-8, missing_field.py:4-8,
    missing_fieldset.py:5-9, missing_list.py:4-8, missing_section.py:9-13,
    missing_fieldset_entry.py:4-8 *)
Definition missing_name (k : mkind) : text :=
  match k with
  | MKElement => U "MissingSectionElement"
  | MKEmpty => U "MissingEmpty"
  | MKField => U "MissingField"
  | MKFieldset => U "MissingFieldset"
  | MKList => U "MissingList"
  | MKSection => U "MissingSection"
  | MKEntry => U "MissingFieldsetEntry"
  end.
Definition print_missing (m : missing) : text :=
  match m with
  | Missing k (Some (ch :: key)) _ => U "<class " ++ missing_name k ++ U " key=" ++ ch :: key ++ U ">"
  | Missing k _ _ => U "<class " ++ missing_name k ++ U ">"
  end.
