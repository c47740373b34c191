(** ReplayTests: the expectations written down in the repository's own generated test suite
    (python/tests/generated), replayed against the model by computation.  They guard the
    transcription; they are not part of any proof.  Generated from the test sources' text. *)
From Verif Require Import Base Types Messages Analyzer Resolver Reporter Errors Context Elements.
Local Open Scope list_scope.

Definition T (ls : list String.string) : text := join [nl] (map U ls).

(** Dynamic view of the API, to replay chained calls. *)
Inductive dv :=
| VO (o : nat) | VM (m : missing) | VN | VT (t : text) | VL (l : list dv) | VE (e : eno_error).
Inductive darg := AT (t : text) | AB (b : bool) | AL.

Definition of_found (x : found) : dv := match x with FObj o => VO o | FMissing m => VM m | FNone => VN end.
Definition of_opt (x : option text) : dv := match x with Some t => VT t | None => VN end.
Definition akey (args : list darg) : option text := match args with AT t :: _ => Some t | _ => None end.

Definition table_kind (s : String.string) : option (kind * option bool) :=
  match s with
  | "empty"%string => Some (KEmpty, None) | "field"%string => Some (KField, None)
  | "fieldset"%string => Some (KFieldset, None) | "list"%string => Some (KList, None)
  | "section"%string => Some (KSection, None)
  | "optional_empty"%string => Some (KEmpty, Some false) | "optional_field"%string => Some (KField, Some false)
  | "optional_fieldset"%string => Some (KFieldset, Some false) | "optional_list"%string => Some (KList, Some false)
  | "optional_section"%string => Some (KSection, Some false)
  | "required_empty"%string => Some (KEmpty, Some true) | "required_field"%string => Some (KField, Some true)
  | "required_fieldset"%string => Some (KFieldset, Some true) | "required_list"%string => Some (KList, Some true)
  | "required_section"%string => Some (KSection, Some true)
  | _ => None
  end.
Definition table_plural (s : String.string) : option kind :=
  match s with
  | "fields"%string => Some KField | "fieldsets"%string => Some KFieldset
  | "lists"%string => Some KList | "sections"%string => Some KSection
  | _ => None
  end.
Definition table_to (s : String.string) : option kind :=
  match s with
  | "to_empty"%string => Some KEmpty | "to_field"%string => Some KField
  | "to_fieldset"%string => Some KFieldset | "to_list"%string => Some KList
  | "to_section"%string => Some KSection
  | _ => None
  end.

Definition call (ld : loader text) (v : dv) (name : String.string) (args : list darg) : sM dv :=
  let key := akey args in
  match v with
  | VO o =>
      match table_kind name, table_plural name, table_to name with
      | Some (k, r), _, _ => let! x := query (Some k) o key r in ret (of_found x)
      | _, Some k, _ => let! x := plural k o key in ret (VL (map VO x))
      | _, _, Some k => let! x := to_kind k o in ret (VO x)
      | _, _, _ =>
      match name with
      | "element"%string => let! x := query None o key None in ret (of_found x)
      | "required_element"%string => let! x := query None o key (Some true) in ret (of_found x)
      | "elements"%string => let! x := section_elements o key in ret (VL (map VO x))
      | "entry"%string => let! x := fieldset_entry o key in ret (of_found x)
      | "required_entry"%string => let! x := fieldset_required_entry o key in ret (of_found x)
      | "entries"%string => let! x := fieldset_entries o key in ret (VL (map VO x))
      | "items"%string => let! x := list_items o in ret (VL (map VO x))
      | "optional_string_value"%string => let! x := value_of o string_loader false in ret (of_opt x)
      | "required_string_value"%string => let! x := value_of o string_loader true in ret (of_opt x)
      | "required_value"%string => let! x := value_of o ld true in ret (of_opt x)
      | "required_comment"%string => let! x := comment_of o ld true in ret (of_opt x)
      | "key"%string => let! x := key_with o ld in ret (VT x)
      | "optional_string_comment"%string => let! x := comment_of o string_loader false in ret (of_opt x)
      | "required_string_comment"%string => let! x := comment_of o string_loader true in ret (of_opt x)
      | "optional_string_values"%string => let! x := list_values o string_loader false in ret (VL (map of_opt x))
      | "required_string_values"%string => let! x := list_values o string_loader true in ret (VL (map of_opt x))
      | "string_key"%string => let! x := string_key o in ret (VT x)
      | "touch"%string =>
          let! x := the_obj o in
          (match o_class x with
           | CSection => touch_section o
           | CFieldset => touch_group fieldset_children o
           | CList => touch_group list_children o
           | _ => touch_obj o
           end) ;; ret VN
      | "all_elements_required"%string =>
          all_elements_required o (match args with AB b :: _ => b | _ => true end) ;; ret VN
      | "all_entries_required"%string =>
          all_entries_required o (match args with AB b :: _ => b | _ => true end) ;; ret VN
      | "assert_all_touched"%string =>
          let! x := the_obj o in
          let m := match key with Some t => MsgText t | None => MsgNone end in
          (match o_class x with
           | CFieldset => fieldset_assert_all_touched o m None None
           | _ => assert_all_touched o m None None
           end) ;; ret VN
      | "error"%string => let! x := error_of o (match key with Some t => t | None => [] end) in ret (VE x)
      | "key_error"%string => let! x := key_error_of o (match key with Some t => t | None => [] end) in ret (VE x)
      | "comment_error"%string => let! x := comment_error_of o (match key with Some t => t | None => [] end) in ret (VE x)
      | "value_error"%string => let! x := value_error_of o (match key with Some t => t | None => [] end) in ret (VE x)
      | _ => raise AttributeError
      end
      end
  | VM m =>
      match name with
      | "required_string_value"%string => let! x := missing_value (A:=text) m true in ret (of_opt x)
      | _ => raise AttributeError
      end
  | _ => raise AttributeError
  end.

Definition nth_dv (v : dv) (i : nat) : sM dv :=
  match v with VL l => match nth_error l i with Some x => ret x | None => raise IndexError end
             | _ => raise TypeError end.
Definition map_dv (f : dv -> sM dv) (v : dv) : sM dv :=
  match v with VL l => let! r := mapM f l in ret (VL r) | _ => raise TypeError end.
Definition raise_dv (v : dv) : sM dv := match v with VE e => raise (ValidationError e) | _ => raise TypeError end.

Inductive tres := TErr (t s : text) (from to : nat * nat) | TVal (v : dv) | TPass | TExn (e : exn).
Definition show_exn (e : exn) : tres :=
  match e with
  | ParseError e | ValidationError e =>
      let f := sel_from (er_selection e) in let t := sel_to (er_selection e) in
      TErr (er_text e) (er_snippet e) (cu_line f, cu_column f) (cu_line t, cu_column t)
  | e => TExn e
  end.
Definition run (inp : text) (ld : loader text) (p : (dv -> String.string -> list darg -> sM dv) -> sM dv) : tres :=
  match parse inp en TextReporter None with
  | Raise e => show_exn e
  | Ok (s, _) =>
      match snd (p (call ld) s) with
      | Ok VN => TPass
      | Ok v => TVal v
      | Raise e => show_exn e
      end
  end.
Definition err_text (r : tres) : option text := match r with TErr t _ _ _ => Some t | _ => None end.

(* generated/api/empty/test_string_comment.py test_querying_an_existing_single_line_required_string_comment_from_an_empty_element_produces_the_expected_result *)
Example t1 : (run (T ["> comment"%string; "element:"%string]) string_loader
  (fun call =>
   let! v_output := (let! x := (let! x := ret (VO 0) in call x "element"%string [AT (T ["element"%string])]) in call x "required_string_comment"%string []) in
   ret v_output))
  = TVal (VT (T ["comment"%string])).
Proof. vm_compute. reflexivity. Qed.

(* generated/api/empty/test_string_comment.py test_querying_an_existing_two_line_required_string_comment_from_an_empty_element_produces_the_expected_result *)
Example t2 : (run (T [">comment"%string; ">  comment"%string; "element:"%string]) string_loader
  (fun call =>
   let! v_output := (let! x := (let! x := ret (VO 0) in call x "element"%string [AT (T ["element"%string])]) in call x "required_string_comment"%string []) in
   ret v_output))
  = TVal (VT (T ["comment"%string; "  comment"%string])).
Proof. vm_compute. reflexivity. Qed.

(* generated/api/empty/test_string_comment.py test_querying_an_existing_required_string_comment_with_blank_lines_from_an_empty_element_produces_the_expected_result *)
Example t3 : (run (T [">"%string; ">     comment"%string; ">"%string; ">   comment"%string; ">"%string; "> comment"%string; ">"%string; "element:"%string]) string_loader
  (fun call =>
   let! v_output := (let! x := (let! x := ret (VO 0) in call x "element"%string [AT (T ["element"%string])]) in call x "required_string_comment"%string []) in
   ret v_output))
  = TVal (VT (T ["    comment"%string; ""%string; "  comment"%string; ""%string; "comment"%string])).
Proof. vm_compute. reflexivity. Qed.

(* generated/api/empty/test_string_comment.py test_querying_an_optional_existing_string_comment_from_an_empty_element_produces_the_expected_result *)
Example t4 : (run (T ["> comment"%string; "element:"%string]) string_loader
  (fun call =>
   let! v_output := (let! x := (let! x := ret (VO 0) in call x "element"%string [AT (T ["element"%string])]) in call x "optional_string_comment"%string []) in
   ret v_output))
  = TVal (VT (T ["comment"%string])).
Proof. vm_compute. reflexivity. Qed.

(* generated/api/empty/test_string_comment.py test_querying_an_optional_missing_string_comment_from_an_empty_element_produces_the_expected_result *)
Example t5 : (run (T ["element:"%string]) string_loader
  (fun call =>
   let! v_output := (let! x := (let! x := ret (VO 0) in call x "element"%string [AT (T ["element"%string])]) in call x "optional_string_comment"%string []) in
   ret v_output))
  = TPass.
Proof. vm_compute. reflexivity. Qed.

(* generated/api/empty/test_touch.py test_asserting_everything_was_touched_when_the_only_present_empty_element_was_not_touched_raises_the_expected_validation *)
Example t6 : (run (T ["element:"%string]) string_loader
  (fun call =>
   let! _ := (let! x := ret (VO 0) in call x "assert_all_touched"%string []) in
   ret VN))
  = TErr (T ["This element was not expected, make sure it is at the right place in the document and that its key is not mis-typed."%string]) (T ["   Line | Content"%string; " >    1 | element:"%string]) (0,0) (0,8).
Proof. vm_compute. reflexivity. Qed.

(* generated/api/empty/test_touch.py test_asserting_everything_was_touched_when_the_only_present_empty_element_was_touched_produces_the_expected_result *)
Example t7 : (run (T ["element:"%string]) string_loader
  (fun call =>
   let! v_document := ret (VO 0) in
   let! _ := (let! x := (let! x := ret v_document in call x "empty"%string [AT (T ["element"%string])]) in call x "touch"%string []) in
   let! _ := (let! x := ret v_document in call x "assert_all_touched"%string []) in
   ret VN))
  = TPass.
Proof. vm_compute. reflexivity. Qed.

(* generated/api/empty/test_touch.py test_asserting_everything_was_touched_when_the_only_present_empty_element_was_touched_after_typecasting_to_a_field_produ *)
Example t8 : (run (T ["field:"%string]) string_loader
  (fun call =>
   let! v_document := ret (VO 0) in
   let! _ := (let! x := (let! x := ret v_document in call x "field"%string [AT (T ["field"%string])]) in call x "touch"%string []) in
   let! _ := (let! x := ret v_document in call x "assert_all_touched"%string []) in
   ret VN))
  = TPass.
Proof. vm_compute. reflexivity. Qed.

(* generated/api/empty/test_touch.py test_asserting_everything_was_touched_when_the_only_present_empty_element_was_touched_after_typecasting_to_a_fieldset_pr *)
Example t9 : (run (T ["fieldset:"%string]) string_loader
  (fun call =>
   let! v_document := ret (VO 0) in
   let! _ := (let! x := (let! x := ret v_document in call x "fieldset"%string [AT (T ["fieldset"%string])]) in call x "touch"%string []) in
   let! _ := (let! x := ret v_document in call x "assert_all_touched"%string []) in
   ret VN))
  = TPass.
Proof. vm_compute. reflexivity. Qed.

(* generated/api/empty/test_touch.py test_asserting_everything_was_touched_when_the_only_present_empty_element_was_touched_after_typecasting_to_a_list_produc *)
Example t10 : (run (T ["list:"%string]) string_loader
  (fun call =>
   let! v_document := ret (VO 0) in
   let! _ := (let! x := (let! x := ret v_document in call x "list"%string [AT (T ["list"%string])]) in call x "touch"%string []) in
   let! _ := (let! x := ret v_document in call x "assert_all_touched"%string []) in
   ret VN))
  = TPass.
Proof. vm_compute. reflexivity. Qed.

(* generated/api/field/test_error.py test_obtaining_and_throwing_an_error_with_a_custom_message_in_the_context_of_a_field_raises_the_expected_validationerror *)
Example t11 : (run (T ["field: value"%string]) string_loader
  (fun call =>
   let! _ := (let! x := (let! x := (let! x := ret (VO 0) in call x "field"%string [AT (T ["field"%string])]) in call x "error"%string [AT (T ["my message"%string])]) in raise_dv x) in
   ret VN))
  = TErr (T ["my message"%string]) (T ["   Line | Content"%string; " >    1 | field: value"%string]) (0,0) (0,12).
Proof. vm_compute. reflexivity. Qed.

(* generated/api/field/test_key_error.py test_obtaining_and_throwing_an_error_with_a_custom_message_in_the_context_of_a_field_s_key_raises_the_expected_validatio *)
Example t12 : (run (T ["field: value"%string]) string_loader
  (fun call =>
   let! _ := (let! x := (let! x := (let! x := ret (VO 0) in call x "field"%string [AT (T ["field"%string])]) in call x "key_error"%string [AT (T ["my message"%string])]) in raise_dv x) in
   ret VN))
  = TErr (T ["There is a problem with the key of this element: my message"%string]) (T ["   Line | Content"%string; " >    1 | field: value"%string]) (0,0) (0,5).
Proof. vm_compute. reflexivity. Qed.

(* generated/api/field/test_string_comment.py test_querying_an_existing_single_line_required_string_comment_from_a_field_produces_the_expected_result *)
Example t13 : (run (T ["> comment"%string; "field: value"%string]) string_loader
  (fun call =>
   let! v_output := (let! x := (let! x := ret (VO 0) in call x "field"%string [AT (T ["field"%string])]) in call x "required_string_comment"%string []) in
   ret v_output))
  = TVal (VT (T ["comment"%string])).
Proof. vm_compute. reflexivity. Qed.

(* generated/api/field/test_string_comment.py test_querying_an_existing_two_line_required_string_comment_from_a_field_produces_the_expected_result *)
Example t14 : (run (T [">comment"%string; ">  comment"%string; "field: value"%string]) string_loader
  (fun call =>
   let! v_output := (let! x := (let! x := ret (VO 0) in call x "field"%string [AT (T ["field"%string])]) in call x "required_string_comment"%string []) in
   ret v_output))
  = TVal (VT (T ["comment"%string; "  comment"%string])).
Proof. vm_compute. reflexivity. Qed.

(* generated/api/field/test_string_comment.py test_querying_an_existing_required_string_comment_with_blank_lines_from_a_field_produces_the_expected_result *)
Example t15 : (run (T [">"%string; ">      comment"%string; ">"%string; ">    comment"%string; ">"%string; ">  comment"%string; ">"%string; "field: value"%string]) string_loader
  (fun call =>
   let! v_output := (let! x := (let! x := ret (VO 0) in call x "field"%string [AT (T ["field"%string])]) in call x "required_string_comment"%string []) in
   ret v_output))
  = TVal (VT (T ["    comment"%string; ""%string; "  comment"%string; ""%string; "comment"%string])).
Proof. vm_compute. reflexivity. Qed.

(* generated/api/field/test_string_comment.py test_querying_an_optional_existing_string_comment_from_a_field_produces_the_expected_result *)
Example t16 : (run (T ["> comment"%string; "field: value"%string]) string_loader
  (fun call =>
   let! v_output := (let! x := (let! x := ret (VO 0) in call x "field"%string [AT (T ["field"%string])]) in call x "optional_string_comment"%string []) in
   ret v_output))
  = TVal (VT (T ["comment"%string])).
Proof. vm_compute. reflexivity. Qed.

(* generated/api/field/test_string_comment.py test_querying_an_optional_missing_string_comment_from_a_field_produces_the_expected_result *)
Example t17 : (run (T ["field: value"%string]) string_loader
  (fun call =>
   let! v_output := (let! x := (let! x := ret (VO 0) in call x "field"%string [AT (T ["field"%string])]) in call x "optional_string_comment"%string []) in
   ret v_output))
  = TPass.
Proof. vm_compute. reflexivity. Qed.

(* generated/api/field/test_string_value.py test_querying_an_existing_required_string_value_from_a_field_produces_the_expected_result *)
Example t18 : (run (T ["field: value"%string]) string_loader
  (fun call =>
   let! v_output := (let! x := (let! x := ret (VO 0) in call x "field"%string [AT (T ["field"%string])]) in call x "required_string_value"%string []) in
   ret v_output))
  = TVal (VT (T ["value"%string])).
Proof. vm_compute. reflexivity. Qed.

(* generated/api/field/test_string_value.py test_querying_an_existing_optional_string_value_from_a_field_produces_the_expected_result *)
Example t19 : (run (T ["field: value"%string]) string_loader
  (fun call =>
   let! v_output := (let! x := (let! x := ret (VO 0) in call x "field"%string [AT (T ["field"%string])]) in call x "optional_string_value"%string []) in
   ret v_output))
  = TVal (VT (T ["value"%string])).
Proof. vm_compute. reflexivity. Qed.

(* generated/api/field/test_string_value.py test_querying_a_missing_optional_string_value_from_a_field_produces_the_expected_result *)
Example t20 : (run (T ["field:"%string]) string_loader
  (fun call =>
   let! v_output := (let! x := (let! x := ret (VO 0) in call x "field"%string [AT (T ["field"%string])]) in call x "optional_string_value"%string []) in
   ret v_output))
  = TPass.
Proof. vm_compute. reflexivity. Qed.

(* generated/api/field/test_touch.py test_asserting_everything_was_touched_when_the_only_present_field_was_not_touched_raises_the_expected_validationerror *)
Example t21 : (run (T ["field: value"%string]) string_loader
  (fun call =>
   let! _ := (let! x := ret (VO 0) in call x "assert_all_touched"%string []) in
   ret VN))
  = TErr (T ["This element was not expected, make sure it is at the right place in the document and that its key is not mis-typed."%string]) (T ["   Line | Content"%string; " >    1 | field: value"%string]) (0,0) (0,12).
Proof. vm_compute. reflexivity. Qed.

(* generated/api/field/test_touch.py test_asserting_everything_was_touched_when_the_only_present_field_was_touched_produces_the_expected_result *)
Example t22 : (run (T ["field: value"%string]) string_loader
  (fun call =>
   let! v_document := ret (VO 0) in
   let! _ := (let! x := (let! x := ret v_document in call x "field"%string [AT (T ["field"%string])]) in call x "touch"%string []) in
   let! _ := (let! x := ret v_document in call x "assert_all_touched"%string []) in
   ret VN))
  = TPass.
Proof. vm_compute. reflexivity. Qed.

(* generated/api/field/test_value_error.py test_obtaining_and_throwing_an_error_with_a_custom_message_in_the_context_of_a_field_s_value_raises_the_expected_validat *)
Example t23 : (run (T ["field: value"%string]) string_loader
  (fun call =>
   let! _ := (let! x := (let! x := (let! x := ret (VO 0) in call x "field"%string [AT (T ["field"%string])]) in call x "value_error"%string [AT (T ["my message"%string])]) in raise_dv x) in
   ret VN))
  = TErr (T ["There is a problem with the value of this element: my message"%string]) (T ["   Line | Content"%string; " >    1 | field: value"%string]) (0,7) (0,12).
Proof. vm_compute. reflexivity. Qed.

(* generated/api/fieldset/test_all_entries_required.py test_querying_a_missing_entry_on_a_fieldset_when_all_entries_are_required_raises_the_expected_validationerror *)
Example t24 : err_text (run (T ["fieldset:"%string]) string_loader
  (fun call =>
   let! v_fieldset := (let! x := ret (VO 0) in call x "fieldset"%string [AT (T ["fieldset"%string])]) in
   let! _ := (let! x := ret v_fieldset in call x "all_entries_required"%string []) in
   let! _ := (let! x := ret v_fieldset in call x "entry"%string [AT (T ["entry"%string])]) in
   ret VN))
  = Some (T ["The fieldset entry 'entry' is missing - in case it has been specified look for typos and also check for correct capitalization."%string]).
Proof. vm_compute. reflexivity. Qed.

(* generated/api/fieldset/test_all_entries_required.py test_querying_a_missing_entry_on_a_fieldset_when_all_requiring_all_entries_is_explicitly_enabled_raises_the_expected_val *)
Example t25 : err_text (run (T ["fieldset:"%string]) string_loader
  (fun call =>
   let! v_fieldset := (let! x := ret (VO 0) in call x "fieldset"%string [AT (T ["fieldset"%string])]) in
   let! _ := (let! x := ret v_fieldset in call x "all_entries_required"%string [AB true]) in
   let! _ := (let! x := ret v_fieldset in call x "entry"%string [AT (T ["entry"%string])]) in
   ret VN))
  = Some (T ["The fieldset entry 'entry' is missing - in case it has been specified look for typos and also check for correct capitalization."%string]).
Proof. vm_compute. reflexivity. Qed.

(* generated/api/fieldset/test_all_entries_required.py test_querying_a_missing_entry_on_a_fieldset_when_requiring_all_entries_is_explicitly_disabled_produces_the_expected_resu *)
Example t26 : (run (T ["fieldset:"%string]) string_loader
  (fun call =>
   let! v_fieldset := (let! x := ret (VO 0) in call x "fieldset"%string [AT (T ["fieldset"%string])]) in
   let! _ := (let! x := ret v_fieldset in call x "all_entries_required"%string [AB false]) in
   let! _ := (let! x := ret v_fieldset in call x "entry"%string [AT (T ["entry"%string])]) in
   ret VN))
  = TPass.
Proof. vm_compute. reflexivity. Qed.

(* generated/api/fieldset/test_all_entries_required.py test_querying_a_missing_entry_on_a_fieldset_when_requiring_all_entries_is_enabled_and_disabled_again_produces_the_expect *)
Example t27 : (run (T ["fieldset:"%string]) string_loader
  (fun call =>
   let! v_fieldset := (let! x := ret (VO 0) in call x "fieldset"%string [AT (T ["fieldset"%string])]) in
   let! _ := (let! x := ret v_fieldset in call x "all_entries_required"%string [AB true]) in
   let! _ := (let! x := ret v_fieldset in call x "all_entries_required"%string [AB false]) in
   let! _ := (let! x := ret v_fieldset in call x "entry"%string [AT (T ["entry"%string])]) in
   ret VN))
  = TPass.
Proof. vm_compute. reflexivity. Qed.

(* generated/api/fieldset/test_copies.py test_querying_four_entries_from_a_fieldset_all_of_them_copied_from_another_fieldset_produces_the_expected_result *)
Example t28 : (run (T ["fieldset:"%string; "1 = 1"%string; "2 = 2"%string; "3 = 3"%string; "4 = 4"%string; ""%string; "copy < fieldset"%string]) string_loader
  (fun call =>
   let! v_output := (let! x := (let! x := (let! x := ret (VO 0) in call x "fieldset"%string [AT (T ["copy"%string])]) in call x "entries"%string []) in map_dv (fun v_entry => (let! x := ret v_entry in call x "required_string_value"%string [])) x) in
   ret v_output))
  = TVal (VL [VT (T ["1"%string]); VT (T ["2"%string]); VT (T ["3"%string]); VT (T ["4"%string])]).
Proof. vm_compute. reflexivity. Qed.

(* generated/api/fieldset/test_copies.py test_querying_four_entries_from_a_fieldset_two_of_them_copied_from_another_fieldset_produces_the_expected_result *)
Example t29 : (run (T ["fieldset:"%string; "1 = 1"%string; "2 = 2"%string; ""%string; "copy < fieldset"%string; "3 = 3"%string; "4 = 4"%string]) string_loader
  (fun call =>
   let! v_output := (let! x := (let! x := (let! x := ret (VO 0) in call x "fieldset"%string [AT (T ["copy"%string])]) in call x "entries"%string []) in map_dv (fun v_entry => (let! x := ret v_entry in call x "required_string_value"%string [])) x) in
   ret v_output))
  = TVal (VL [VT (T ["1"%string]); VT (T ["2"%string]); VT (T ["3"%string]); VT (T ["4"%string])]).
Proof. vm_compute. reflexivity. Qed.

(* generated/api/fieldset/test_copies.py test_querying_three_entries_from_a_fieldset_one_owned_one_replaced_one_copied_produces_the_expected_result *)
Example t30 : (run (T ["fieldset:"%string; "1 = 1"%string; "2 = 0"%string; ""%string; "copy < fieldset"%string; "2 = 2"%string; "3 = 3"%string]) string_loader
  (fun call =>
   let! v_output := (let! x := (let! x := (let! x := ret (VO 0) in call x "fieldset"%string [AT (T ["copy"%string])]) in call x "entries"%string []) in map_dv (fun v_entry => (let! x := ret v_entry in call x "required_string_value"%string [])) x) in
   ret v_output))
  = TVal (VL [VT (T ["1"%string]); VT (T ["2"%string]); VT (T ["3"%string])]).
Proof. vm_compute. reflexivity. Qed.

(* generated/api/fieldset/test_entries.py test_querying_all_entries_from_a_fieldset_produces_the_expected_result *)
Example t31 : (run (T ["fieldset:"%string; "1 = 1"%string; "2 = 2"%string]) string_loader
  (fun call =>
   let! v_output := (let! x := (let! x := (let! x := ret (VO 0) in call x "fieldset"%string [AT (T ["fieldset"%string])]) in call x "entries"%string []) in map_dv (fun v_entry => (let! x := ret v_entry in call x "required_string_value"%string [])) x) in
   ret v_output))
  = TVal (VL [VT (T ["1"%string]); VT (T ["2"%string])]).
Proof. vm_compute. reflexivity. Qed.

(* generated/api/fieldset/test_entries.py test_querying_entries_from_a_fieldset_by_key_produces_the_expected_result *)
Example t32 : (run (T ["fieldset:"%string; "entry = value"%string; "other = one"%string; "other = two"%string]) string_loader
  (fun call =>
   let! v_output := (let! x := (let! x := (let! x := ret (VO 0) in call x "fieldset"%string [AT (T ["fieldset"%string])]) in call x "entries"%string [AT (T ["other"%string])]) in map_dv (fun v_entry => (let! x := ret v_entry in call x "required_string_value"%string [])) x) in
   ret v_output))
  = TVal (VL [VT (T ["one"%string]); VT (T ["two"%string])]).
Proof. vm_compute. reflexivity. Qed.

(* generated/api/fieldset/test_string_comment.py test_querying_an_existing_single_line_required_string_comment_from_a_fieldset_produces_the_expected_result *)
Example t33 : (run (T ["> comment"%string; "fieldset:"%string; "entry = value"%string]) string_loader
  (fun call =>
   let! v_output := (let! x := (let! x := ret (VO 0) in call x "fieldset"%string [AT (T ["fieldset"%string])]) in call x "required_string_comment"%string []) in
   ret v_output))
  = TVal (VT (T ["comment"%string])).
Proof. vm_compute. reflexivity. Qed.

(* generated/api/fieldset/test_string_comment.py test_querying_an_existing_two_line_required_string_comment_from_a_fieldset_produces_the_expected_result *)
Example t34 : (run (T [">comment"%string; ">  comment"%string; "fieldset:"%string; "entry = value"%string]) string_loader
  (fun call =>
   let! v_output := (let! x := (let! x := ret (VO 0) in call x "fieldset"%string [AT (T ["fieldset"%string])]) in call x "required_string_comment"%string []) in
   ret v_output))
  = TVal (VT (T ["comment"%string; "  comment"%string])).
Proof. vm_compute. reflexivity. Qed.

(* generated/api/fieldset/test_string_comment.py test_querying_an_existing_required_string_comment_with_blank_lines_from_a_fieldset_produces_the_expected_result *)
Example t35 : (run (T [">"%string; ">     comment"%string; ">"%string; ">   comment"%string; ">"%string; "> comment"%string; ">"%string; "fieldset:"%string; "entry = value"%string]) string_loader
  (fun call =>
   let! v_output := (let! x := (let! x := ret (VO 0) in call x "fieldset"%string [AT (T ["fieldset"%string])]) in call x "required_string_comment"%string []) in
   ret v_output))
  = TVal (VT (T ["    comment"%string; ""%string; "  comment"%string; ""%string; "comment"%string])).
Proof. vm_compute. reflexivity. Qed.

(* generated/api/fieldset/test_string_comment.py test_querying_an_optional_existing_string_comment_from_a_fieldset_produces_the_expected_result *)
Example t36 : (run (T ["> comment"%string; "fieldset:"%string; "entry = value"%string]) string_loader
  (fun call =>
   let! v_output := (let! x := (let! x := ret (VO 0) in call x "fieldset"%string [AT (T ["fieldset"%string])]) in call x "optional_string_comment"%string []) in
   ret v_output))
  = TVal (VT (T ["comment"%string])).
Proof. vm_compute. reflexivity. Qed.

(* generated/api/fieldset/test_string_comment.py test_querying_an_optional_missing_string_comment_from_a_fieldset_produces_the_expected_result *)
Example t37 : (run (T ["fieldset:"%string; "entry = value"%string]) string_loader
  (fun call =>
   let! v_output := (let! x := (let! x := ret (VO 0) in call x "fieldset"%string [AT (T ["fieldset"%string])]) in call x "optional_string_comment"%string []) in
   ret v_output))
  = TPass.
Proof. vm_compute. reflexivity. Qed.

(* generated/api/fieldset/test_touch.py test_asserting_everything_was_touched_when_the_only_present_fieldset_was_not_touched_raises_the_expected_validationerror *)
Example t38 : (run (T ["fieldset:"%string; "entry = value"%string]) string_loader
  (fun call =>
   let! _ := (let! x := ret (VO 0) in call x "assert_all_touched"%string []) in
   ret VN))
  = TErr (T ["This element was not expected, make sure it is at the right place in the document and that its key is not mis-typed."%string]) (T ["   Line | Content"%string; " >    1 | fieldset:"%string; " *    2 | entry = value"%string]) (0,0) (1,13).
Proof. vm_compute. reflexivity. Qed.

(* generated/api/fieldset/test_touch.py test_asserting_everything_was_touched_when_the_only_present_fieldset_was_touched_produces_the_expected_result *)
Example t39 : (run (T ["fieldset:"%string; "entry = value"%string]) string_loader
  (fun call =>
   let! v_document := ret (VO 0) in
   let! _ := (let! x := (let! x := ret v_document in call x "fieldset"%string [AT (T ["fieldset"%string])]) in call x "touch"%string []) in
   let! _ := (let! x := ret v_document in call x "assert_all_touched"%string []) in
   ret VN))
  = TPass.
Proof. vm_compute. reflexivity. Qed.

(* generated/api/list/test_copies.py test_querying_four_items_from_a_list_all_of_them_copied_from_another_list_produces_the_expected_result *)
Example t40 : (run (T ["list:"%string; "- 1"%string; "- 2"%string; "- 3"%string; "- 4"%string; ""%string; "copy < list"%string]) string_loader
  (fun call =>
   let! v_output := (let! x := (let! x := ret (VO 0) in call x "list"%string [AT (T ["copy"%string])]) in call x "required_string_values"%string []) in
   ret v_output))
  = TVal (VL [VT (T ["1"%string]); VT (T ["2"%string]); VT (T ["3"%string]); VT (T ["4"%string])]).
Proof. vm_compute. reflexivity. Qed.

(* generated/api/list/test_copies.py test_querying_four_items_from_a_list_two_of_them_copied_from_another_list_produces_the_expected_result *)
Example t41 : (run (T ["list:"%string; "- 1"%string; "- 2"%string; ""%string; "copy < list"%string; "- 3"%string; "- 4"%string]) string_loader
  (fun call =>
   let! v_output := (let! x := (let! x := ret (VO 0) in call x "list"%string [AT (T ["copy"%string])]) in call x "required_string_values"%string []) in
   ret v_output))
  = TVal (VL [VT (T ["1"%string]); VT (T ["2"%string]); VT (T ["3"%string]); VT (T ["4"%string])]).
Proof. vm_compute. reflexivity. Qed.

(* generated/api/list/test_string_comment.py test_querying_an_existing_single_line_required_string_comment_from_a_list_produces_the_expected_result *)
Example t42 : (run (T ["> comment"%string; "list:"%string; "- item"%string]) string_loader
  (fun call =>
   let! v_output := (let! x := (let! x := ret (VO 0) in call x "list"%string [AT (T ["list"%string])]) in call x "required_string_comment"%string []) in
   ret v_output))
  = TVal (VT (T ["comment"%string])).
Proof. vm_compute. reflexivity. Qed.

(* generated/api/list/test_string_comment.py test_querying_an_existing_two_line_required_string_comment_from_a_list_produces_the_expected_result *)
Example t43 : (run (T [">comment"%string; ">  comment"%string; "list:"%string; "- item"%string]) string_loader
  (fun call =>
   let! v_output := (let! x := (let! x := ret (VO 0) in call x "list"%string [AT (T ["list"%string])]) in call x "required_string_comment"%string []) in
   ret v_output))
  = TVal (VT (T ["comment"%string; "  comment"%string])).
Proof. vm_compute. reflexivity. Qed.

(* generated/api/list/test_string_comment.py test_querying_an_existing_required_string_comment_with_blank_lines_from_a_list_produces_the_expected_result *)
Example t44 : (run (T [">"%string; ">     comment"%string; ">"%string; ">   comment"%string; ">"%string; "> comment"%string; ">"%string; "list:"%string; "- item"%string]) string_loader
  (fun call =>
   let! v_output := (let! x := (let! x := ret (VO 0) in call x "list"%string [AT (T ["list"%string])]) in call x "required_string_comment"%string []) in
   ret v_output))
  = TVal (VT (T ["    comment"%string; ""%string; "  comment"%string; ""%string; "comment"%string])).
Proof. vm_compute. reflexivity. Qed.

(* generated/api/list/test_string_comment.py test_querying_an_optional_existing_string_comment_from_a_list_produces_the_expected_result *)
Example t45 : (run (T ["> comment"%string; "list:"%string; "- item"%string]) string_loader
  (fun call =>
   let! v_output := (let! x := (let! x := ret (VO 0) in call x "list"%string [AT (T ["list"%string])]) in call x "optional_string_comment"%string []) in
   ret v_output))
  = TVal (VT (T ["comment"%string])).
Proof. vm_compute. reflexivity. Qed.

(* generated/api/list/test_string_comment.py test_querying_an_optional_missing_string_comment_from_a_list_produces_the_expected_result *)
Example t46 : (run (T ["list:"%string; "- item"%string]) string_loader
  (fun call =>
   let! v_output := (let! x := (let! x := ret (VO 0) in call x "list"%string [AT (T ["list"%string])]) in call x "optional_string_comment"%string []) in
   ret v_output))
  = TPass.
Proof. vm_compute. reflexivity. Qed.

(* generated/api/list/test_string_values.py test_querying_existing_required_string_values_from_a_list_produces_the_expected_result *)
Example t47 : (run (T ["list:"%string; "- item"%string; "- item"%string]) string_loader
  (fun call =>
   let! v_output := (let! x := (let! x := ret (VO 0) in call x "list"%string [AT (T ["list"%string])]) in call x "required_string_values"%string []) in
   ret v_output))
  = TVal (VL [VT (T ["item"%string]); VT (T ["item"%string])]).
Proof. vm_compute. reflexivity. Qed.

(* generated/api/list/test_string_values.py test_querying_existing_optional_string_values_from_a_list_produces_the_expected_result *)
Example t48 : (run (T ["list:"%string; "- item"%string; "- item"%string]) string_loader
  (fun call =>
   let! v_output := (let! x := (let! x := ret (VO 0) in call x "list"%string [AT (T ["list"%string])]) in call x "optional_string_values"%string []) in
   ret v_output))
  = TVal (VL [VT (T ["item"%string]); VT (T ["item"%string])]).
Proof. vm_compute. reflexivity. Qed.

(* generated/api/list/test_string_values.py test_querying_missing_optional_string_values_from_a_list_produces_the_expected_result *)
Example t49 : (run (T ["list:"%string; "-"%string; "-"%string]) string_loader
  (fun call =>
   let! v_output := (let! x := (let! x := ret (VO 0) in call x "list"%string [AT (T ["list"%string])]) in call x "optional_string_values"%string []) in
   ret v_output))
  = TVal (VL [VN; VN]).
Proof. vm_compute. reflexivity. Qed.

(* generated/api/list/test_touch.py test_asserting_everything_was_touched_when_the_only_present_list_was_not_touched_raises_the_expected_validationerror *)
Example t50 : (run (T ["list:"%string; "- item"%string]) string_loader
  (fun call =>
   let! _ := (let! x := ret (VO 0) in call x "assert_all_touched"%string []) in
   ret VN))
  = TErr (T ["This element was not expected, make sure it is at the right place in the document and that its key is not mis-typed."%string]) (T ["   Line | Content"%string; " >    1 | list:"%string; " *    2 | - item"%string]) (0,0) (1,6).
Proof. vm_compute. reflexivity. Qed.

(* generated/api/list/test_touch.py test_asserting_everything_was_touched_when_the_only_present_list_was_touched_produces_the_expected_result *)
Example t51 : (run (T ["list:"%string; "- item"%string]) string_loader
  (fun call =>
   let! v_document := ret (VO 0) in
   let! _ := (let! x := (let! x := ret v_document in call x "list"%string [AT (T ["list"%string])]) in call x "touch"%string []) in
   let! _ := (let! x := ret v_document in call x "assert_all_touched"%string []) in
   ret VN))
  = TPass.
Proof. vm_compute. reflexivity. Qed.

(* generated/api/multiline_field/test_string_comment.py test_querying_an_existing_single_line_required_string_comment_from_a_field_produces_the_expected_result *)
Example t52 : (run (T ["> comment"%string; "-- multiline_field"%string; "value"%string; "-- multiline_field"%string]) string_loader
  (fun call =>
   let! v_output := (let! x := (let! x := ret (VO 0) in call x "field"%string [AT (T ["multiline_field"%string])]) in call x "required_string_comment"%string []) in
   ret v_output))
  = TVal (VT (T ["comment"%string])).
Proof. vm_compute. reflexivity. Qed.

(* generated/api/multiline_field/test_string_comment.py test_querying_an_existing_two_line_required_string_comment_from_a_field_produces_the_expected_result *)
Example t53 : (run (T [">comment"%string; ">  comment"%string; "-- multiline_field"%string; "value"%string; "-- multiline_field"%string]) string_loader
  (fun call =>
   let! v_output := (let! x := (let! x := ret (VO 0) in call x "field"%string [AT (T ["multiline_field"%string])]) in call x "required_string_comment"%string []) in
   ret v_output))
  = TVal (VT (T ["comment"%string; "  comment"%string])).
Proof. vm_compute. reflexivity. Qed.

(* generated/api/multiline_field/test_string_comment.py test_querying_an_existing_required_string_comment_with_blank_lines_from_a_field_produces_the_expected_result *)
Example t54 : (run (T [">"%string; ">     comment"%string; ">"%string; ">   comment"%string; ">"%string; "> comment"%string; ">"%string; "-- multiline_field"%string; "value"%string; "-- multiline_field"%string]) string_loader
  (fun call =>
   let! v_output := (let! x := (let! x := ret (VO 0) in call x "field"%string [AT (T ["multiline_field"%string])]) in call x "required_string_comment"%string []) in
   ret v_output))
  = TVal (VT (T ["    comment"%string; ""%string; "  comment"%string; ""%string; "comment"%string])).
Proof. vm_compute. reflexivity. Qed.

(* generated/api/multiline_field/test_string_comment.py test_querying_an_optional_existing_string_comment_from_a_field_produces_the_expected_result *)
Example t55 : (run (T ["> comment"%string; "-- multiline_field"%string; "value"%string; "-- multiline_field"%string]) string_loader
  (fun call =>
   let! v_output := (let! x := (let! x := ret (VO 0) in call x "field"%string [AT (T ["multiline_field"%string])]) in call x "optional_string_comment"%string []) in
   ret v_output))
  = TVal (VT (T ["comment"%string])).
Proof. vm_compute. reflexivity. Qed.

(* generated/api/multiline_field/test_string_comment.py test_querying_an_optional_missing_string_comment_from_a_field_produces_the_expected_result *)
Example t56 : (run (T ["-- multiline_field"%string; "value"%string; "-- multiline_field"%string]) string_loader
  (fun call =>
   let! v_output := (let! x := (let! x := ret (VO 0) in call x "field"%string [AT (T ["multiline_field"%string])]) in call x "optional_string_comment"%string []) in
   ret v_output))
  = TPass.
Proof. vm_compute. reflexivity. Qed.

(* generated/api/multiline_field/test_string_value.py test_querying_an_existing_required_string_value_from_a_multline_field_produces_the_expected_result *)
Example t57 : (run (T ["-- multiline_field"%string; "value"%string; "-- multiline_field"%string]) string_loader
  (fun call =>
   let! v_output := (let! x := (let! x := ret (VO 0) in call x "field"%string [AT (T ["multiline_field"%string])]) in call x "required_string_value"%string []) in
   ret v_output))
  = TVal (VT (T ["value"%string])).
Proof. vm_compute. reflexivity. Qed.

(* generated/api/multiline_field/test_string_value.py test_querying_an_existing_optional_string_value_from_a_multline_field_produces_the_expected_result *)
Example t58 : (run (T ["-- multiline_field"%string; "value"%string; "-- multiline_field"%string]) string_loader
  (fun call =>
   let! v_output := (let! x := (let! x := ret (VO 0) in call x "field"%string [AT (T ["multiline_field"%string])]) in call x "optional_string_value"%string []) in
   ret v_output))
  = TVal (VT (T ["value"%string])).
Proof. vm_compute. reflexivity. Qed.

(* generated/api/multiline_field/test_string_value.py test_querying_a_missing_optional_string_value_from_a_multline_field_produces_the_expected_result *)
Example t59 : (run (T ["-- multiline_field"%string; "-- multiline_field"%string]) string_loader
  (fun call =>
   let! v_output := (let! x := (let! x := ret (VO 0) in call x "field"%string [AT (T ["multiline_field"%string])]) in call x "optional_string_value"%string []) in
   ret v_output))
  = TPass.
Proof. vm_compute. reflexivity. Qed.

(* generated/api/multiline_field/test_touch.py test_asserting_everything_was_touched_when_the_only_present_multiline_field_was_not_touched_raises_the_expected_validati *)
Example t60 : (run (T ["-- multiline_field"%string; "value"%string; "-- multiline_field"%string]) string_loader
  (fun call =>
   let! _ := (let! x := ret (VO 0) in call x "assert_all_touched"%string []) in
   ret VN))
  = TErr (T ["This element was not expected, make sure it is at the right place in the document and that its key is not mis-typed."%string]) (T ["   Line | Content"%string; " >    1 | -- multiline_field"%string; " *    2 | value"%string; " *    3 | -- multiline_field"%string]) (0,0) (2,18).
Proof. vm_compute. reflexivity. Qed.

(* generated/api/multiline_field/test_touch.py test_asserting_everything_was_touched_when_the_only_present_multiline_field_was_touched_produces_the_expected_result *)
Example t61 : (run (T ["-- multiline_field"%string; "value"%string; "-- multiline_field"%string]) string_loader
  (fun call =>
   let! v_document := ret (VO 0) in
   let! _ := (let! x := (let! x := ret v_document in call x "field"%string [AT (T ["multiline_field"%string])]) in call x "touch"%string []) in
   let! _ := (let! x := ret v_document in call x "assert_all_touched"%string []) in
   ret VN))
  = TPass.
Proof. vm_compute. reflexivity. Qed.

(* generated/api/section/test_all_elements_required.py test_querying_a_missing_field_on_the_document_when_all_elements_are_required_raises_the_expected_validationerror *)
Example t62 : err_text (run (T [""%string]) string_loader
  (fun call =>
   let! v_document := ret (VO 0) in
   let! _ := (let! x := ret v_document in call x "all_elements_required"%string []) in
   let! _ := (let! x := ret v_document in call x "field"%string [AT (T ["field"%string])]) in
   ret VN))
  = Some (T ["The field 'field' is missing - in case it has been specified look for typos and also check for correct capitalization."%string]).
Proof. vm_compute. reflexivity. Qed.

(* generated/api/section/test_all_elements_required.py test_querying_a_missing_fieldset_on_the_document_when_all_elements_are_required_raises_the_expected_validationerror *)
Example t63 : err_text (run (T [""%string]) string_loader
  (fun call =>
   let! v_document := ret (VO 0) in
   let! _ := (let! x := ret v_document in call x "all_elements_required"%string []) in
   let! _ := (let! x := ret v_document in call x "fieldset"%string [AT (T ["fieldset"%string])]) in
   ret VN))
  = Some (T ["The fieldset 'fieldset' is missing - in case it has been specified look for typos and also check for correct capitalization."%string]).
Proof. vm_compute. reflexivity. Qed.

(* generated/api/section/test_all_elements_required.py test_querying_a_missing_list_on_the_document_when_all_elements_are_required_raises_the_expected_validationerror *)
Example t64 : err_text (run (T [""%string]) string_loader
  (fun call =>
   let! v_document := ret (VO 0) in
   let! _ := (let! x := ret v_document in call x "all_elements_required"%string []) in
   let! _ := (let! x := ret v_document in call x "list"%string [AT (T ["list"%string])]) in
   ret VN))
  = Some (T ["The list 'list' is missing - in case it has been specified look for typos and also check for correct capitalization."%string]).
Proof. vm_compute. reflexivity. Qed.

(* generated/api/section/test_all_elements_required.py test_querying_a_missing_section_on_the_document_when_all_elements_are_required_raises_the_expected_validationerror *)
Example t65 : err_text (run (T [""%string]) string_loader
  (fun call =>
   let! v_document := ret (VO 0) in
   let! _ := (let! x := ret v_document in call x "all_elements_required"%string []) in
   let! _ := (let! x := ret v_document in call x "section"%string [AT (T ["section"%string])]) in
   ret VN))
  = Some (T ["The section 'section' is missing - in case it has been specified look for typos and also check for correct capitalization."%string]).
Proof. vm_compute. reflexivity. Qed.

(* generated/api/section/test_all_elements_required.py test_querying_a_missing_field_on_the_document_when_requiring_all_elements_is_explicitly_disabled_produces_the_expected_r *)
Example t66 : (run (T [""%string]) string_loader
  (fun call =>
   let! v_document := ret (VO 0) in
   let! _ := (let! x := ret v_document in call x "all_elements_required"%string [AB false]) in
   let! _ := (let! x := ret v_document in call x "field"%string [AT (T ["field"%string])]) in
   ret VN))
  = TPass.
Proof. vm_compute. reflexivity. Qed.

(* generated/api/section/test_all_elements_required.py test_querying_a_missing_field_on_the_document_when_requiring_all_elements_is_enabled_and_disabled_again_produces_the_exp *)
Example t67 : (run (T [""%string]) string_loader
  (fun call =>
   let! v_document := ret (VO 0) in
   let! _ := (let! x := ret v_document in call x "all_elements_required"%string [AB true]) in
   let! _ := (let! x := ret v_document in call x "all_elements_required"%string [AB false]) in
   let! _ := (let! x := ret v_document in call x "field"%string [AT (T ["field"%string])]) in
   ret VN))
  = TPass.
Proof. vm_compute. reflexivity. Qed.

(* generated/api/section/test_assert_all_touched.py test_asserting_everything_was_touched_on_an_empty_document_produces_the_expected_result *)
Example t68 : (run (T [""%string]) string_loader
  (fun call =>
   let! _ := (let! x := ret (VO 0) in call x "assert_all_touched"%string []) in
   ret VN))
  = TPass.
Proof. vm_compute. reflexivity. Qed.

(* generated/api/section/test_assert_all_touched.py test_asserting_everything_was_touched_on_an_untouched_document_containing_a_single_field_raises_the_expected_validatione *)
Example t69 : (run (T ["field: value"%string]) string_loader
  (fun call =>
   let! _ := (let! x := ret (VO 0) in call x "assert_all_touched"%string []) in
   ret VN))
  = TErr (T ["This element was not expected, make sure it is at the right place in the document and that its key is not mis-typed."%string]) (T ["   Line | Content"%string; " >    1 | field: value"%string]) (0,0) (0,12).
Proof. vm_compute. reflexivity. Qed.

(* generated/api/section/test_assert_all_touched.py test_asserting_everything_was_touched_on_an_untouched_document_containing_a_single_field_with_a_custom_message_raises_th *)
Example t70 : (run (T ["field: value"%string]) string_loader
  (fun call =>
   let! _ := (let! x := ret (VO 0) in call x "assert_all_touched"%string [AT (T ["my message"%string])]) in
   ret VN))
  = TErr (T ["my message"%string]) (T ["   Line | Content"%string; " >    1 | field: value"%string]) (0,0) (0,12).
Proof. vm_compute. reflexivity. Qed.

(* generated/api/section/test_elements.py test_querying_all_elements_from_a_section_produces_the_expected_result *)
Example t71 : (run (T ["# section"%string; "one: value"%string; "two: value"%string]) string_loader
  (fun call =>
   let! v_output := (let! x := (let! x := (let! x := ret (VO 0) in call x "section"%string [AT (T ["section"%string])]) in call x "elements"%string []) in map_dv (fun v_element => (let! x := ret v_element in call x "string_key"%string [])) x) in
   ret v_output))
  = TVal (VL [VT (T ["one"%string]); VT (T ["two"%string])]).
Proof. vm_compute. reflexivity. Qed.

(* generated/api/section/test_elements.py test_querying_elements_from_a_section_by_key_produces_the_expected_result *)
Example t72 : (run (T ["# section"%string; "field: value"%string; "other: one"%string; "other: two"%string]) string_loader
  (fun call =>
   let! v_output := (let! x := (let! x := (let! x := ret (VO 0) in call x "section"%string [AT (T ["section"%string])]) in call x "elements"%string [AT (T ["other"%string])]) in map_dv (fun v_element => (let! x := (let! x := ret v_element in call x "to_field"%string []) in call x "required_string_value"%string [])) x) in
   ret v_output))
  = TVal (VL [VT (T ["one"%string]); VT (T ["two"%string])]).
Proof. vm_compute. reflexivity. Qed.

(* generated/api/section/test_string_comment.py test_querying_an_existing_single_line_required_string_comment_from_a_section_produces_the_expected_result *)
Example t73 : (run (T ["> comment"%string; "# section"%string]) string_loader
  (fun call =>
   let! v_output := (let! x := (let! x := ret (VO 0) in call x "section"%string [AT (T ["section"%string])]) in call x "required_string_comment"%string []) in
   ret v_output))
  = TVal (VT (T ["comment"%string])).
Proof. vm_compute. reflexivity. Qed.

(* generated/api/section/test_string_comment.py test_querying_an_existing_two_line_required_string_comment_from_a_section_produces_the_expected_result *)
Example t74 : (run (T [">comment"%string; ">  comment"%string; "# section"%string]) string_loader
  (fun call =>
   let! v_output := (let! x := (let! x := ret (VO 0) in call x "section"%string [AT (T ["section"%string])]) in call x "required_string_comment"%string []) in
   ret v_output))
  = TVal (VT (T ["comment"%string; "  comment"%string])).
Proof. vm_compute. reflexivity. Qed.

(* generated/api/section/test_string_comment.py test_querying_an_existing_required_string_comment_with_blank_lines_from_a_section_produces_the_expected_result *)
Example t75 : (run (T [">"%string; ">     comment"%string; ">"%string; ">   comment"%string; ">"%string; "> comment"%string; ">"%string; "# section"%string]) string_loader
  (fun call =>
   let! v_output := (let! x := (let! x := ret (VO 0) in call x "section"%string [AT (T ["section"%string])]) in call x "required_string_comment"%string []) in
   ret v_output))
  = TVal (VT (T ["    comment"%string; ""%string; "  comment"%string; ""%string; "comment"%string])).
Proof. vm_compute. reflexivity. Qed.

(* generated/api/section/test_string_comment.py test_querying_an_optional_existing_string_comment_from_a_section_produces_the_expected_result *)
Example t76 : (run (T ["> comment"%string; "# section"%string]) string_loader
  (fun call =>
   let! v_output := (let! x := (let! x := ret (VO 0) in call x "section"%string [AT (T ["section"%string])]) in call x "optional_string_comment"%string []) in
   ret v_output))
  = TVal (VT (T ["comment"%string])).
Proof. vm_compute. reflexivity. Qed.

(* generated/api/section/test_string_comment.py test_querying_an_optional_missing_string_comment_from_a_section_produces_the_expected_result *)
Example t77 : (run (T ["# section"%string]) string_loader
  (fun call =>
   let! v_output := (let! x := (let! x := ret (VO 0) in call x "section"%string [AT (T ["section"%string])]) in call x "optional_string_comment"%string []) in
   ret v_output))
  = TPass.
Proof. vm_compute. reflexivity. Qed.

(* generated/api/section/test_touch.py test_asserting_everything_was_touched_when_the_only_present_section_was_not_touched_raises_the_expected_validationerror *)
Example t78 : (run (T ["# section"%string]) string_loader
  (fun call =>
   let! _ := (let! x := ret (VO 0) in call x "assert_all_touched"%string []) in
   ret VN))
  = TErr (T ["This element was not expected, make sure it is at the right place in the document and that its key is not mis-typed."%string]) (T ["   Line | Content"%string; " >    1 | # section"%string]) (0,0) (0,9).
Proof. vm_compute. reflexivity. Qed.

(* generated/api/section/test_touch.py test_asserting_everything_was_touched_when_the_only_present_section_was_touched_produces_the_expected_result *)
Example t79 : (run (T ["# section"%string]) string_loader
  (fun call =>
   let! v_document := ret (VO 0) in
   let! _ := (let! x := (let! x := ret v_document in call x "section"%string [AT (T ["section"%string])]) in call x "touch"%string []) in
   let! _ := (let! x := ret v_document in call x "assert_all_touched"%string []) in
   ret VN))
  = TPass.
Proof. vm_compute. reflexivity. Qed.

(* generated/errors/parsing/test_cyclic_dependency.py test_multiple_sections_with_multiple_cyclical_copy_chains_raises_the_expected_parseerror *)
Example t80 : (run (T ["# section_1 < section_2"%string; "field: value"%string; ""%string; "## subsection_1 < subsection_2"%string; "field: value"%string; ""%string; "# section_2 < section_1"%string; "field: value"%string; ""%string; "## subsection_2 < section_1"%string; "field: value"%string]) string_loader
  (fun call =>
   let! _ := ret (VO 0) in
   ret VN))
  = TErr (T ["In line 10 'section_1' is copied into itself."%string]) (T ["   Line | Content"%string; " *    1 | # section_1 < section_2"%string; "      2 | field: value"%string; "      3 | "%string; " *    4 | ## subsection_1 < subsection_2"%string; "      5 | field: value"%string; "      6 | "%string; "   ..."%string; "      8 | field: value"%string; "      9 | "%string; " >   10 | ## subsection_2 < section_1"%string; "     11 | field: value"%string]) (9,18) (9,27).
Proof. vm_compute. reflexivity. Qed.

(* generated/errors/parsing/test_cyclic_dependency.py test_three_empty_elements_copying_each_other_two_of_them_cyclically_raises_the_expected_parseerror *)
Example t81 : (run (T ["copy < empty"%string; "empty < cyclic"%string; "cyclic < empty"%string]) string_loader
  (fun call =>
   let! _ := ret (VO 0) in
   ret VN))
  = TErr (T ["In line 3 'empty' is copied into itself."%string]) (T ["   Line | Content"%string; "      1 | copy < empty"%string; " *    2 | empty < cyclic"%string; " >    3 | cyclic < empty"%string]) (2,9) (2,14).
Proof. vm_compute. reflexivity. Qed.

(* generated/errors/parsing/test_cyclic_dependency.py test_three_sections_with_one_being_copied_into_its_own_subsection_raises_the_expected_parseerror *)
Example t82 : (run (T ["# section"%string; "## copied_subsection < section"%string; "# copied_section < section"%string]) string_loader
  (fun call =>
   let! _ := ret (VO 0) in
   ret VN))
  = TErr (T ["In line 2 'section' is copied into itself."%string]) (T ["   Line | Content"%string; " *    1 | # section"%string; " >    2 | ## copied_subsection < section"%string; "      3 | # copied_section < section"%string]) (1,23) (1,30).
Proof. vm_compute. reflexivity. Qed.

(* generated/errors/parsing/test_cyclic_dependency.py test_three_sections_with_one_being_copied_into_its_own_subsubsection_raises_the_expected_parseerror *)
Example t83 : (run (T ["# section"%string; "## subsection"%string; "### copied_subsubsection < section"%string]) string_loader
  (fun call =>
   let! _ := ret (VO 0) in
   ret VN))
  = TErr (T ["In line 3 'section' is copied into itself."%string]) (T ["   Line | Content"%string; " *    1 | # section"%string; " *    2 | ## subsection"%string; " >    3 | ### copied_subsubsection < section"%string]) (2,27) (2,34).
Proof. vm_compute. reflexivity. Qed.

(* generated/errors/parsing/test_cyclic_dependency.py test_two_fieldsets_mutually_copying_each_other_raises_the_expected_parseerror *)
Example t84 : (run (T ["copy < fieldset"%string; "entry = value"%string; ""%string; "fieldset < copy"%string; "entry = value"%string]) string_loader
  (fun call =>
   let! _ := ret (VO 0) in
   ret VN))
  = TErr (T ["In line 4 'copy' is copied into itself."%string]) (T ["   Line | Content"%string; " *    1 | copy < fieldset"%string; "      2 | entry = value"%string; "      3 | "%string; " >    4 | fieldset < copy"%string; "      5 | entry = value"%string]) (3,11) (3,15).
Proof. vm_compute. reflexivity. Qed.

(* generated/errors/parsing/test_cyclic_dependency.py test_two_lists_mutually_copying_each_other_raises_the_expected_parseerror *)
Example t85 : (run (T ["copy < list"%string; "- item"%string; ""%string; "list < copy"%string; "- item"%string]) string_loader
  (fun call =>
   let! _ := ret (VO 0) in
   ret VN))
  = TErr (T ["In line 4 'copy' is copied into itself."%string]) (T ["   Line | Content"%string; " *    1 | copy < list"%string; "      2 | - item"%string; "      3 | "%string; " >    4 | list < copy"%string; "      5 | - item"%string]) (3,7) (3,11).
Proof. vm_compute. reflexivity. Qed.

(* generated/errors/parsing/test_invalid_line.py test_a_line_without_operators_raises_the_expected_parseerror *)
Example t86 : (run (T ["list:"%string; "- item"%string; "- item"%string; "illegal"%string]) string_loader
  (fun call =>
   let! _ := ret (VO 0) in
   ret VN))
  = TErr (T ["Line 4 does not follow any specified pattern."%string]) (T ["   Line | Content"%string; "   ..."%string; "      2 | - item"%string; "      3 | - item"%string; " >    4 | illegal"%string]) (3,0) (3,7).
Proof. vm_compute. reflexivity. Qed.

(* generated/errors/parsing/test_missing_element_for_continuation.py test_parsing_a_line_continuation_without_any_prior_element_raises_the_expected_parseerror *)
Example t87 : (run (T ["| continuation"%string]) string_loader
  (fun call =>
   let! _ := ret (VO 0) in
   ret VN))
  = TErr (T ["Line 1 contains a line continuation without a continuable element being specified before."%string]) (T ["   Line | Content"%string; " >    1 | | continuation"%string]) (0,0) (0,14).
Proof. vm_compute. reflexivity. Qed.

(* generated/errors/parsing/test_missing_element_for_continuation.py test_parsing_a_line_continuation_preceded_by_a_copied_field_raises_the_expected_parseerror *)
Example t88 : (run (T ["field: value"%string; ""%string; "copy < field"%string; "| illegal_continuation"%string]) string_loader
  (fun call =>
   let! _ := ret (VO 0) in
   ret VN))
  = TErr (T ["Line 4 contains a line continuation without a continuable element being specified before."%string]) (T ["   Line | Content"%string; "   ..."%string; "      2 | "%string; "      3 | copy < field"%string; " >    4 | | illegal_continuation"%string]) (3,0) (3,22).
Proof. vm_compute. reflexivity. Qed.

(* generated/errors/parsing/test_missing_fieldset_for_fieldset_entry.py test_parsing_a_fieldset_entry_without_a_fieldset_raises_the_expected_parseerror *)
Example t89 : (run (T ["entry = value"%string]) string_loader
  (fun call =>
   let! _ := ret (VO 0) in
   ret VN))
  = TErr (T ["Line 1 contains a fieldset entry without a fieldset being specified before."%string]) (T ["   Line | Content"%string; " >    1 | entry = value"%string]) (0,0) (0,13).
Proof. vm_compute. reflexivity. Qed.

(* generated/errors/parsing/test_missing_fieldset_for_fieldset_entry.py test_parsing_a_fieldset_entry_preceded_by_a_line_continuation_raises_the_expected_parseerror *)
Example t90 : (run (T ["field:"%string; "| line_continuation"%string; "entry = value"%string]) string_loader
  (fun call =>
   let! _ := ret (VO 0) in
   ret VN))
  = TErr (T ["Line 3 contains a fieldset entry without a fieldset being specified before."%string]) (T ["   Line | Content"%string; "      1 | field:"%string; "      2 | | line_continuation"%string; " >    3 | entry = value"%string]) (2,0) (2,13).
Proof. vm_compute. reflexivity. Qed.

(* generated/errors/parsing/test_missing_fieldset_for_fieldset_entry.py test_parsing_a_fieldset_entry_preceded_by_a_field_raises_the_expected_parseerror *)
Example t91 : (run (T ["field: value"%string; "entry = value"%string]) string_loader
  (fun call =>
   let! _ := ret (VO 0) in
   ret VN))
  = TErr (T ["Line 2 contains a fieldset entry without a fieldset being specified before."%string]) (T ["   Line | Content"%string; "      1 | field: value"%string; " >    2 | entry = value"%string]) (1,0) (1,13).
Proof. vm_compute. reflexivity. Qed.

(* generated/errors/parsing/test_missing_fieldset_for_fieldset_entry.py test_parsing_a_fieldset_entry_preceded_by_a_list_item_raises_the_expected_parseerror *)
Example t92 : (run (T ["list:"%string; "- item"%string; "entry = value"%string]) string_loader
  (fun call =>
   let! _ := ret (VO 0) in
   ret VN))
  = TErr (T ["Line 3 contains a fieldset entry without a fieldset being specified before."%string]) (T ["   Line | Content"%string; "      1 | list:"%string; "      2 | - item"%string; " >    3 | entry = value"%string]) (2,0) (2,13).
Proof. vm_compute. reflexivity. Qed.

(* generated/errors/parsing/test_missing_fieldset_for_fieldset_entry.py test_parsing_a_fieldset_entry_preceded_by_a_copied_field_raises_the_expected_parseerror *)
Example t93 : (run (T ["field: value"%string; ""%string; "copy < field"%string; "entry = value"%string]) string_loader
  (fun call =>
   let! _ := ret (VO 0) in
   ret VN))
  = TErr (T ["Line 4 contains a fieldset entry without a fieldset being specified before."%string]) (T ["   Line | Content"%string; "   ..."%string; "      2 | "%string; "      3 | copy < field"%string; " >    4 | entry = value"%string]) (3,0) (3,13).
Proof. vm_compute. reflexivity. Qed.

(* generated/errors/parsing/test_missing_fieldset_for_fieldset_entry.py test_parsing_a_fieldset_entry_preceded_by_a_copied_list_raises_the_expected_parseerror *)
Example t94 : (run (T ["list:"%string; "- item"%string; ""%string; "copy < list"%string; "entry = value"%string]) string_loader
  (fun call =>
   let! _ := ret (VO 0) in
   ret VN))
  = TErr (T ["Line 5 contains a fieldset entry without a fieldset being specified before."%string]) (T ["   Line | Content"%string; "   ..."%string; "      3 | "%string; "      4 | copy < list"%string; " >    5 | entry = value"%string]) (4,0) (4,13).
Proof. vm_compute. reflexivity. Qed.

(* generated/errors/parsing/test_missing_fieldset_for_fieldset_entry.py test_parsing_a_fieldset_entry_preceded_by_a_copied_empty_multiline_field_raises_the_expected_parseerror *)
Example t95 : (run (T ["-- multiline field"%string; "-- multiline field"%string; ""%string; "copy < multiline field"%string; "entry = value"%string]) string_loader
  (fun call =>
   let! _ := ret (VO 0) in
   ret VN))
  = TErr (T ["Line 5 contains a fieldset entry without a fieldset being specified before."%string]) (T ["   Line | Content"%string; "   ..."%string; "      3 | "%string; "      4 | copy < multiline field"%string; " >    5 | entry = value"%string]) (4,0) (4,13).
Proof. vm_compute. reflexivity. Qed.

(* generated/errors/parsing/test_missing_fieldset_for_fieldset_entry.py test_parsing_a_fieldset_entry_preceded_by_a_copied_multiline_field_raises_the_expected_parseerror *)
Example t96 : (run (T ["-- multiline field"%string; "value"%string; "-- multiline field"%string; ""%string; "copy < multiline field"%string; "entry = value"%string]) string_loader
  (fun call =>
   let! _ := ret (VO 0) in
   ret VN))
  = TErr (T ["Line 6 contains a fieldset entry without a fieldset being specified before."%string]) (T ["   Line | Content"%string; "   ..."%string; "      4 | "%string; "      5 | copy < multiline field"%string; " >    6 | entry = value"%string]) (5,0) (5,13).
Proof. vm_compute. reflexivity. Qed.

(* generated/errors/parsing/test_missing_list_for_list_item.py test_parsing_a_list_item_without_any_previous_element_raises_the_expected_parseerror *)
Example t97 : (run (T ["- item"%string]) string_loader
  (fun call =>
   let! _ := ret (VO 0) in
   ret VN))
  = TErr (T ["Line 1 contains a list item without a list being specified before."%string]) (T ["   Line | Content"%string; " >    1 | - item"%string]) (0,0) (0,6).
Proof. vm_compute. reflexivity. Qed.

(* generated/errors/parsing/test_missing_list_for_list_item.py test_parsing_a_list_item_preceded_by_a_line_continuation_raises_the_expected_parseerror *)
Example t98 : (run (T ["field:"%string; "| continuation"%string; "- item"%string]) string_loader
  (fun call =>
   let! _ := ret (VO 0) in
   ret VN))
  = TErr (T ["Line 3 contains a list item without a list being specified before."%string]) (T ["   Line | Content"%string; "      1 | field:"%string; "      2 | | continuation"%string; " >    3 | - item"%string]) (2,0) (2,6).
Proof. vm_compute. reflexivity. Qed.

(* generated/errors/parsing/test_missing_list_for_list_item.py test_parsing_a_list_item_preceded_by_a_fieldset_entry_raises_the_expected_parseerror *)
Example t99 : (run (T ["fieldset:"%string; "entry = value"%string; "- item"%string]) string_loader
  (fun call =>
   let! _ := ret (VO 0) in
   ret VN))
  = TErr (T ["Line 3 contains a list item without a list being specified before."%string]) (T ["   Line | Content"%string; "      1 | fieldset:"%string; "      2 | entry = value"%string; " >    3 | - item"%string]) (2,0) (2,6).
Proof. vm_compute. reflexivity. Qed.

(* generated/errors/parsing/test_missing_list_for_list_item.py test_parsing_a_list_item_preceded_by_a_copied_field_raises_the_expected_parseerror *)
Example t100 : (run (T ["field: value"%string; ""%string; "copy < field"%string; "- item"%string]) string_loader
  (fun call =>
   let! _ := ret (VO 0) in
   ret VN))
  = TErr (T ["Line 4 contains a list item without a list being specified before."%string]) (T ["   Line | Content"%string; "   ..."%string; "      2 | "%string; "      3 | copy < field"%string; " >    4 | - item"%string]) (3,0) (3,6).
Proof. vm_compute. reflexivity. Qed.

(* generated/errors/parsing/test_missing_list_for_list_item.py test_parsing_a_list_item_preceded_by_a_copied_fieldset_raises_the_expected_parseerror *)
Example t101 : (run (T ["fieldset:"%string; "entry = value"%string; ""%string; "copy < fieldset"%string; "- item"%string]) string_loader
  (fun call =>
   let! _ := ret (VO 0) in
   ret VN))
  = TErr (T ["Line 5 contains a list item without a list being specified before."%string]) (T ["   Line | Content"%string; "   ..."%string; "      3 | "%string; "      4 | copy < fieldset"%string; " >    5 | - item"%string]) (4,0) (4,6).
Proof. vm_compute. reflexivity. Qed.

(* generated/errors/parsing/test_missing_list_for_list_item.py test_parsing_a_list_item_preceded_by_a_multiline_field_raises_the_expected_parseerror *)
Example t102 : (run (T ["-- multiline_field"%string; "value"%string; "-- multiline_field"%string; ""%string; "copy < multiline_field"%string; "- item"%string]) string_loader
  (fun call =>
   let! _ := ret (VO 0) in
   ret VN))
  = TErr (T ["Line 6 contains a list item without a list being specified before."%string]) (T ["   Line | Content"%string; "   ..."%string; "      4 | "%string; "      5 | copy < multiline_field"%string; " >    6 | - item"%string]) (5,0) (5,6).
Proof. vm_compute. reflexivity. Qed.

(* generated/errors/parsing/test_missing_list_for_list_item.py test_parsing_a_list_item_preceded_by_an_empty_multiline_field_raises_the_expected_parseerror *)
Example t103 : (run (T ["-- multiline_field"%string; "-- multiline_field"%string; ""%string; "copy < multiline_field"%string; "- item"%string]) string_loader
  (fun call =>
   let! _ := ret (VO 0) in
   ret VN))
  = TErr (T ["Line 5 contains a list item without a list being specified before."%string]) (T ["   Line | Content"%string; "   ..."%string; "      3 | "%string; "      4 | copy < multiline_field"%string; " >    5 | - item"%string]) (4,0) (4,6).
Proof. vm_compute. reflexivity. Qed.

(* generated/errors/parsing/test_non_section_element_not_found.py test_copying_a_non_section_element_that_does_not_exist_raises_the_expected_parseerror *)
Example t104 : (run (T ["copy < element"%string]) string_loader
  (fun call =>
   let! _ := ret (VO 0) in
   ret VN))
  = TErr (T ["In line 1 the non-section element 'element' should be copied, but it was not found."%string]) (T ["   Line | Content"%string; " >    1 | copy < element"%string]) (0,0) (0,14).
Proof. vm_compute. reflexivity. Qed.

(* generated/errors/parsing/test_non_section_element_not_found.py test_copying_a_non_section_element_whose_key_only_exists_on_a_section_raises_the_expected_parseerror *)
Example t105 : (run (T ["# section"%string; ""%string; "# other_section"%string; ""%string; "copy < section"%string]) string_loader
  (fun call =>
   let! _ := ret (VO 0) in
   ret VN))
  = TErr (T ["In line 5 the non-section element 'section' should be copied, but it was not found."%string]) (T ["   Line | Content"%string; "   ..."%string; "      3 | # other_section"%string; "      4 | "%string; " >    5 | copy < section"%string]) (4,0) (4,14).
Proof. vm_compute. reflexivity. Qed.

(* generated/errors/parsing/test_non_section_element_not_found.py test_copying_an_implied_fieldset_whose_key_only_exists_on_a_section_raises_the_expected_parseerror *)
Example t106 : (run (T ["# section"%string; ""%string; "# other_section"%string; ""%string; "copy < section"%string; "entry = value"%string]) string_loader
  (fun call =>
   let! _ := ret (VO 0) in
   ret VN))
  = TErr (T ["In line 5 the non-section element 'section' should be copied, but it was not found."%string]) (T ["   Line | Content"%string; "   ..."%string; "      3 | # other_section"%string; "      4 | "%string; " >    5 | copy < section"%string; "      6 | entry = value"%string]) (4,0) (4,14).
Proof. vm_compute. reflexivity. Qed.

(* generated/errors/parsing/test_non_section_element_not_found.py test_copying_an_implied_list_whose_key_only_exists_on_a_section_raises_the_expected_parseerror *)
Example t107 : (run (T ["# section"%string; ""%string; "# other_section"%string; ""%string; "copy < section"%string; "- item"%string]) string_loader
  (fun call =>
   let! _ := ret (VO 0) in
   ret VN))
  = TErr (T ["In line 5 the non-section element 'section' should be copied, but it was not found."%string]) (T ["   Line | Content"%string; "   ..."%string; "      3 | # other_section"%string; "      4 | "%string; " >    5 | copy < section"%string; "      6 | - item"%string]) (4,0) (4,14).
Proof. vm_compute. reflexivity. Qed.

(* generated/errors/parsing/test_section_hierarchy_layer_skip.py test_starting_a_section_two_levels_deeper_than_the_current_one_raises_the_expected_parseerror *)
Example t108 : (run (T ["# section"%string; "### subsubsection"%string]) string_loader
  (fun call =>
   let! _ := ret (VO 0) in
   ret VN))
  = TErr (T ["Line 2 starts a section that is more than one level deeper than the current one."%string]) (T ["   Line | Content"%string; " *    1 | # section"%string; " >    2 | ### subsubsection"%string]) (1,0) (1,17).
Proof. vm_compute. reflexivity. Qed.

(* generated/errors/parsing/test_section_hierarchy_layer_skip.py test_starting_the_first_section_in_the_document_at_a_deep_level_raises_the_expected_parseerror *)
Example t109 : (run (T ["### section"%string]) string_loader
  (fun call =>
   let! _ := ret (VO 0) in
   ret VN))
  = TErr (T ["Line 1 starts a section that is more than one level deeper than the current one."%string]) (T ["   Line | Content"%string; " >    1 | ### section"%string]) (0,0) (0,11).
Proof. vm_compute. reflexivity. Qed.

(* generated/errors/parsing/test_section_not_found.py test_copying_a_section_that_does_not_exist_raises_the_expected_parseerror *)
Example t110 : (run (T ["# copy < section"%string]) string_loader
  (fun call =>
   let! _ := ret (VO 0) in
   ret VN))
  = TErr (T ["In line 1 the section 'section' should be copied, but it was not found."%string]) (T ["   Line | Content"%string; " >    1 | # copy < section"%string]) (0,0) (0,16).
Proof. vm_compute. reflexivity. Qed.

(* generated/errors/parsing/test_section_not_found.py test_copying_a_section_whose_key_only_exists_on_a_field_raises_the_expected_parseerror *)
Example t111 : (run (T ["field: value"%string; ""%string; "# copy < field"%string]) string_loader
  (fun call =>
   let! _ := ret (VO 0) in
   ret VN))
  = TErr (T ["In line 3 the section 'field' should be copied, but it was not found."%string]) (T ["   Line | Content"%string; "      1 | field: value"%string; "      2 | "%string; " >    3 | # copy < field"%string]) (2,0) (2,14).
Proof. vm_compute. reflexivity. Qed.

(* generated/errors/parsing/test_section_not_found.py test_copying_a_section_whose_key_only_exists_on_a_fieldset_raises_the_expected_parseerror *)
Example t112 : (run (T ["fieldset:"%string; "entry = value"%string; ""%string; "# copy < fieldset"%string]) string_loader
  (fun call =>
   let! _ := ret (VO 0) in
   ret VN))
  = TErr (T ["In line 4 the section 'fieldset' should be copied, but it was not found."%string]) (T ["   Line | Content"%string; "   ..."%string; "      2 | entry = value"%string; "      3 | "%string; " >    4 | # copy < fieldset"%string]) (3,0) (3,17).
Proof. vm_compute. reflexivity. Qed.

(* generated/errors/parsing/test_section_not_found.py test_copying_a_section_whose_key_only_exists_on_a_list_raises_the_expected_parseerror *)
Example t113 : (run (T ["list:"%string; "- item"%string; ""%string; "# copy < list"%string]) string_loader
  (fun call =>
   let! _ := ret (VO 0) in
   ret VN))
  = TErr (T ["In line 4 the section 'list' should be copied, but it was not found."%string]) (T ["   Line | Content"%string; "   ..."%string; "      2 | - item"%string; "      3 | "%string; " >    4 | # copy < list"%string]) (3,0) (3,13).
Proof. vm_compute. reflexivity. Qed.

(* generated/errors/parsing/test_section_not_found.py test_copying_a_section_whose_key_only_exists_on_a_multiline_field_raises_the_expected_parseerror *)
Example t114 : (run (T ["-- multiline_field"%string; "value"%string; "-- multiline_field"%string; ""%string; "# copy < multiline_field"%string]) string_loader
  (fun call =>
   let! _ := ret (VO 0) in
   ret VN))
  = TErr (T ["In line 5 the section 'multiline_field' should be copied, but it was not found."%string]) (T ["   Line | Content"%string; "   ..."%string; "      3 | -- multiline_field"%string; "      4 | "%string; " >    5 | # copy < multiline_field"%string]) (4,0) (4,24).
Proof. vm_compute. reflexivity. Qed.

(* generated/errors/parsing/test_section_not_found.py test_copying_a_section_whose_key_only_exists_on_an_empty_multiline_field_raises_the_expected_parseerror *)
Example t115 : (run (T ["-- multiline_field"%string; "-- multiline_field"%string; ""%string; "# copy < multiline_field"%string]) string_loader
  (fun call =>
   let! _ := ret (VO 0) in
   ret VN))
  = TErr (T ["In line 4 the section 'multiline_field' should be copied, but it was not found."%string]) (T ["   Line | Content"%string; "   ..."%string; "      2 | -- multiline_field"%string; "      3 | "%string; " >    4 | # copy < multiline_field"%string]) (3,0) (3,24).
Proof. vm_compute. reflexivity. Qed.

(* generated/errors/parsing/test_section_not_found.py test_copying_a_section_whose_key_only_exists_on_a_fieldset_entry_raises_the_expected_parseerror *)
Example t116 : (run (T ["fieldset:"%string; "entry = value"%string; ""%string; "# copy < entry"%string]) string_loader
  (fun call =>
   let! _ := ret (VO 0) in
   ret VN))
  = TErr (T ["In line 4 the section 'entry' should be copied, but it was not found."%string]) (T ["   Line | Content"%string; "   ..."%string; "      2 | entry = value"%string; "      3 | "%string; " >    4 | # copy < entry"%string]) (3,0) (3,14).
Proof. vm_compute. reflexivity. Qed.

(* generated/errors/parsing/test_two_or_more_templates_found.py test_copying_a_field_that_exists_twice_raises_the_expected_parseerror *)
Example t117 : (run (T ["field: value"%string; "field: value"%string; ""%string; "copy < field"%string]) string_loader
  (fun call =>
   let! _ := ret (VO 0) in
   ret VN))
  = TErr (T ["There are at least two elements with the key 'field' that qualify for being copied here, it is not clear which to copy."%string]) (T ["   Line | Content"%string; " ?    1 | field: value"%string; " ?    2 | field: value"%string; "      3 | "%string; " >    4 | copy < field"%string]) (3,0) (3,12).
Proof. vm_compute. reflexivity. Qed.

(* generated/errors/parsing/test_two_or_more_templates_found.py test_copying_a_section_that_exists_twice_raises_the_expected_parseerror *)
Example t118 : (run (T ["# section"%string; ""%string; "# section"%string; ""%string; "# copy < section"%string]) string_loader
  (fun call =>
   let! _ := ret (VO 0) in
   ret VN))
  = TErr (T ["There are at least two elements with the key 'section' that qualify for being copied here, it is not clear which to copy."%string]) (T ["   Line | Content"%string; " ?    1 | # section"%string; "      2 | "%string; " ?    3 | # section"%string; "      4 | "%string; " >    5 | # copy < section"%string]) (4,0) (4,16).
Proof. vm_compute. reflexivity. Qed.

(* generated/errors/parsing/test_unterminated_escaped_key.py test_a_single_field_with_an_terminated_escaped_key_raises_the_expected_parseerror *)
Example t119 : (run (T ["`field: value"%string]) string_loader
  (fun call =>
   let! _ := ret (VO 0) in
   ret VN))
  = TErr (T ["In line 1 the key of an element is escaped, but the escape sequence is not terminated until the end of the line."%string]) (T ["   Line | Content"%string; " >    1 | `field: value"%string]) (0,1) (0,13).
Proof. vm_compute. reflexivity. Qed.

(* generated/errors/parsing/test_unterminated_escaped_key.py test_a_single_section_with_an_unterminated_escaped_key_raises_the_expected_parseerror *)
Example t120 : (run (T ["# `field: value"%string]) string_loader
  (fun call =>
   let! _ := ret (VO 0) in
   ret VN))
  = TErr (T ["In line 1 the key of an element is escaped, but the escape sequence is not terminated until the end of the line."%string]) (T ["   Line | Content"%string; " >    1 | # `field: value"%string]) (0,3) (0,15).
Proof. vm_compute. reflexivity. Qed.

(* generated/errors/parsing/test_unterminated_multiline_field.py test_a_multiline_field_with_an_incomplete_multiline_field_operator_in_the_ending_line_raises_the_expected_parseerror *)
Example t121 : (run (T ["-- multiline_field"%string; "value"%string; "value"%string; "value"%string; "- multiline_field"%string]) string_loader
  (fun call =>
   let! _ := ret (VO 0) in
   ret VN))
  = TErr (T ["The multiline field 'multiline_field' starting in line 1 is not terminated until the end of the document."%string]) (T ["   Line | Content"%string; " >    1 | -- multiline_field"%string; " *    2 | value"%string; " *    3 | value"%string; " *    4 | value"%string; " *    5 | - multiline_field"%string]) (0,0) (0,18).
Proof. vm_compute. reflexivity. Qed.

(* generated/errors/parsing/test_unterminated_multiline_field.py test_a_multiline_field_with_an_edge_case_key_and_missing_space_in_the_ending_line_raises_the_expected_parseerror *)
Example t122 : (run (T ["-- -"%string; "value"%string; "value"%string; "value"%string; "---"%string]) string_loader
  (fun call =>
   let! _ := ret (VO 0) in
   ret VN))
  = TErr (T ["The multiline field '-' starting in line 1 is not terminated until the end of the document."%string]) (T ["   Line | Content"%string; " >    1 | -- -"%string; " *    2 | value"%string; " *    3 | value"%string; " *    4 | value"%string; " *    5 | ---"%string]) (0,0) (0,4).
Proof. vm_compute. reflexivity. Qed.

(* generated/errors/validation/test_expected_element_got_elements.py test_expecting_an_element_but_getting_two_elements_raises_the_expected_validationerror *)
Example t123 : (run (T ["element:"%string; "element:"%string]) string_loader
  (fun call =>
   let! _ := (let! x := ret (VO 0) in call x "element"%string [AT (T ["element"%string])]) in
   ret VN))
  = TErr (T ["Only a single element with the key 'element' was expected."%string]) (T ["   Line | Content"%string; " >    1 | element:"%string; " >    2 | element:"%string]) (0,0) (0,8).
Proof. vm_compute. reflexivity. Qed.

(* generated/errors/validation/test_expected_element_got_elements.py test_expecting_an_element_but_getting_two_elements_with_comments_and_empty_lines_raises_the_expected_validationerror *)
Example t124 : (run (T ["> comment"%string; "element:"%string; ""%string; "> comment"%string; "element:"%string]) string_loader
  (fun call =>
   let! _ := (let! x := ret (VO 0) in call x "element"%string [AT (T ["element"%string])]) in
   ret VN))
  = TErr (T ["Only a single element with the key 'element' was expected."%string]) (T ["   Line | Content"%string; "      1 | > comment"%string; " >    2 | element:"%string; "      3 | "%string; "      4 | > comment"%string; " >    5 | element:"%string]) (1,0) (1,8).
Proof. vm_compute. reflexivity. Qed.

(* generated/errors/validation/test_expected_field_got_fields.py test_expecting_a_field_but_getting_two_fields_raises_the_expected_validationerror *)
Example t125 : (run (T ["field: value"%string; "field: value"%string]) string_loader
  (fun call =>
   let! _ := (let! x := ret (VO 0) in call x "field"%string [AT (T ["field"%string])]) in
   ret VN))
  = TErr (T ["Only a single field with the key 'field' was expected."%string]) (T ["   Line | Content"%string; " >    1 | field: value"%string; " >    2 | field: value"%string]) (0,0) (0,12).
Proof. vm_compute. reflexivity. Qed.

(* generated/errors/validation/test_expected_field_got_fields.py test_expecting_a_field_but_getting_two_fields_with_comments_empty_lines_and_continuations_raises_the_expected_validation *)
Example t126 : (run (T ["> comment"%string; "field: value"%string; "\ continuation"%string; ""%string; "\ continuation"%string; ""%string; "field: value"%string; "> comment"%string; "| continutation"%string]) string_loader
  (fun call =>
   let! _ := (let! x := ret (VO 0) in call x "field"%string [AT (T ["field"%string])]) in
   ret VN))
  = TErr (T ["Only a single field with the key 'field' was expected."%string]) (T ["   Line | Content"%string; "      1 | > comment"%string; " >    2 | field: value"%string; " *    3 | \ continuation"%string; " *    4 | "%string; " *    5 | \ continuation"%string; "      6 | "%string; " >    7 | field: value"%string; " *    8 | > comment"%string; " *    9 | | continutation"%string]) (1,0) (4,14).
Proof. vm_compute. reflexivity. Qed.

(* generated/errors/validation/test_expected_field_got_fieldset.py test_expecting_a_field_but_getting_a_fieldset_with_one_item_raises_the_expected_validationerror *)
Example t127 : (run (T ["fieldset:"%string; "entry = value"%string]) string_loader
  (fun call =>
   let! _ := (let! x := ret (VO 0) in call x "field"%string [AT (T ["fieldset"%string])]) in
   ret VN))
  = TErr (T ["A field with the key 'fieldset' was expected."%string]) (T ["   Line | Content"%string; " >    1 | fieldset:"%string; " *    2 | entry = value"%string]) (0,0) (1,13).
Proof. vm_compute. reflexivity. Qed.

(* generated/errors/validation/test_expected_field_got_fieldset.py test_expecting_a_field_but_getting_a_fieldset_with_empty_lines_and_multiple_entries_raises_the_expected_validationerror *)
Example t128 : (run (T ["fieldset:"%string; ""%string; "entry = value"%string; ""%string; "entry = value"%string; ""%string; "entry = value"%string; ""%string]) string_loader
  (fun call =>
   let! _ := (let! x := ret (VO 0) in call x "field"%string [AT (T ["fieldset"%string])]) in
   ret VN))
  = TErr (T ["A field with the key 'fieldset' was expected."%string]) (T ["   Line | Content"%string; " >    1 | fieldset:"%string; " *    2 | "%string; " *    3 | entry = value"%string; " *    4 | "%string; " *    5 | entry = value"%string; " *    6 | "%string; " *    7 | entry = value"%string; "      8 | "%string]) (0,0) (6,13).
Proof. vm_compute. reflexivity. Qed.

(* generated/errors/validation/test_expected_field_got_fieldset.py test_expecting_a_field_but_getting_a_fieldset_with_two_entries_with_comments_raises_the_expected_validationerror *)
Example t129 : (run (T ["fieldset:"%string; "> comment"%string; "entry = value"%string; ""%string; "> comment"%string; "entry = value"%string]) string_loader
  (fun call =>
   let! _ := (let! x := ret (VO 0) in call x "field"%string [AT (T ["fieldset"%string])]) in
   ret VN))
  = TErr (T ["A field with the key 'fieldset' was expected."%string]) (T ["   Line | Content"%string; " >    1 | fieldset:"%string; " *    2 | > comment"%string; " *    3 | entry = value"%string; " *    4 | "%string; " *    5 | > comment"%string; " *    6 | entry = value"%string]) (0,0) (5,13).
Proof. vm_compute. reflexivity. Qed.

(* generated/errors/validation/test_expected_field_got_list.py test_expecting_a_field_but_getting_a_list_with_one_item_raises_the_expected_validationerror *)
Example t130 : (run (T ["list:"%string; "- item"%string]) string_loader
  (fun call =>
   let! _ := (let! x := ret (VO 0) in call x "field"%string [AT (T ["list"%string])]) in
   ret VN))
  = TErr (T ["A field with the key 'list' was expected."%string]) (T ["   Line | Content"%string; " >    1 | list:"%string; " *    2 | - item"%string]) (0,0) (1,6).
Proof. vm_compute. reflexivity. Qed.

(* generated/errors/validation/test_expected_field_got_list.py test_expecting_a_field_but_getting_a_list_with_empty_lines_and_multiple_items_raises_the_expected_validationerror *)
Example t131 : (run (T ["list:"%string; ""%string; "- item"%string; ""%string; "- item"%string; ""%string; "- item"%string; ""%string]) string_loader
  (fun call =>
   let! _ := (let! x := ret (VO 0) in call x "field"%string [AT (T ["list"%string])]) in
   ret VN))
  = TErr (T ["A field with the key 'list' was expected."%string]) (T ["   Line | Content"%string; " >    1 | list:"%string; " *    2 | "%string; " *    3 | - item"%string; " *    4 | "%string; " *    5 | - item"%string; " *    6 | "%string; " *    7 | - item"%string; "      8 | "%string]) (0,0) (6,6).
Proof. vm_compute. reflexivity. Qed.

(* generated/errors/validation/test_expected_field_got_list.py test_expecting_a_field_but_getting_a_list_with_two_items_with_comments_raises_the_expected_validationerror *)
Example t132 : (run (T ["list:"%string; "> comment"%string; "- item"%string; ""%string; "> comment"%string; "- item"%string]) string_loader
  (fun call =>
   let! _ := (let! x := ret (VO 0) in call x "field"%string [AT (T ["list"%string])]) in
   ret VN))
  = TErr (T ["A field with the key 'list' was expected."%string]) (T ["   Line | Content"%string; " >    1 | list:"%string; " *    2 | > comment"%string; " *    3 | - item"%string; " *    4 | "%string; " *    5 | > comment"%string; " *    6 | - item"%string]) (0,0) (5,6).
Proof. vm_compute. reflexivity. Qed.

(* generated/errors/validation/test_expected_field_got_section.py test_expecting_a_field_but_getting_an_empty_section_raises_the_expected_validationerror *)
Example t133 : (run (T ["# section"%string]) string_loader
  (fun call =>
   let! _ := (let! x := ret (VO 0) in call x "field"%string [AT (T ["section"%string])]) in
   ret VN))
  = TErr (T ["A field with the key 'section' was expected."%string]) (T ["   Line | Content"%string; " >    1 | # section"%string]) (0,0) (0,9).
Proof. vm_compute. reflexivity. Qed.

(* generated/errors/validation/test_expected_field_got_section.py test_expecting_a_field_but_getting_a_section_with_a_field_and_a_list_raises_the_expected_validationerror *)
Example t134 : (run (T ["# section"%string; ""%string; "field: value"%string; ""%string; "list:"%string; "- item"%string; "- item"%string]) string_loader
  (fun call =>
   let! _ := (let! x := ret (VO 0) in call x "field"%string [AT (T ["section"%string])]) in
   ret VN))
  = TErr (T ["A field with the key 'section' was expected."%string]) (T ["   Line | Content"%string; " >    1 | # section"%string; " *    2 | "%string; " *    3 | field: value"%string; " *    4 | "%string; " *    5 | list:"%string; " *    6 | - item"%string; " *    7 | - item"%string]) (0,0) (6,6).
Proof. vm_compute. reflexivity. Qed.

(* generated/errors/validation/test_expected_field_got_section.py test_expecting_a_field_but_getting_a_section_with_subsections_raises_the_expected_validationerror *)
Example t135 : (run (T ["# section"%string; ""%string; "## subsection"%string; ""%string; "field: value"%string; ""%string; "## subsection"%string; ""%string; "list:"%string; "- item"%string; "- item"%string]) string_loader
  (fun call =>
   let! _ := (let! x := ret (VO 0) in call x "field"%string [AT (T ["section"%string])]) in
   ret VN))
  = TErr (T ["A field with the key 'section' was expected."%string]) (T ["   Line | Content"%string; " >    1 | # section"%string; " *    2 | "%string; " *    3 | ## subsection"%string; " *    4 | "%string; " *    5 | field: value"%string; " *    6 | "%string; " *    7 | ## subsection"%string; " *    8 | "%string; " *    9 | list:"%string; " *   10 | - item"%string; " *   11 | - item"%string]) (0,0) (10,6).
Proof. vm_compute. reflexivity. Qed.

(* generated/errors/validation/test_expected_fields_got_fieldset.py test_expecting_fields_but_getting_a_fieldset_with_one_item_raises_the_expected_validationerror *)
Example t136 : (run (T ["fieldset:"%string; "entry = value"%string]) string_loader
  (fun call =>
   let! _ := (let! x := ret (VO 0) in call x "fields"%string [AT (T ["fieldset"%string])]) in
   ret VN))
  = TErr (T ["Only fields with the key 'fieldset' were expected."%string]) (T ["   Line | Content"%string; " >    1 | fieldset:"%string; " *    2 | entry = value"%string]) (0,0) (1,13).
Proof. vm_compute. reflexivity. Qed.

(* generated/errors/validation/test_expected_fields_got_fieldset.py test_expecting_fields_but_getting_a_fieldset_with_empty_lines_and_multiple_entries_raises_the_expected_validationerror *)
Example t137 : (run (T ["fieldset:"%string; ""%string; "entry = value"%string; ""%string; "entry = value"%string; ""%string; "entry = value"%string; ""%string]) string_loader
  (fun call =>
   let! _ := (let! x := ret (VO 0) in call x "fields"%string [AT (T ["fieldset"%string])]) in
   ret VN))
  = TErr (T ["Only fields with the key 'fieldset' were expected."%string]) (T ["   Line | Content"%string; " >    1 | fieldset:"%string; " *    2 | "%string; " *    3 | entry = value"%string; " *    4 | "%string; " *    5 | entry = value"%string; " *    6 | "%string; " *    7 | entry = value"%string; "      8 | "%string]) (0,0) (6,13).
Proof. vm_compute. reflexivity. Qed.

(* generated/errors/validation/test_expected_fields_got_fieldset.py test_expecting_fields_but_getting_a_fieldset_with_two_entries_with_comments_raises_the_expected_validationerror *)
Example t138 : (run (T ["fieldset:"%string; "> comment"%string; "entry = value"%string; ""%string; "> comment"%string; "entry = value"%string]) string_loader
  (fun call =>
   let! _ := (let! x := ret (VO 0) in call x "fields"%string [AT (T ["fieldset"%string])]) in
   ret VN))
  = TErr (T ["Only fields with the key 'fieldset' were expected."%string]) (T ["   Line | Content"%string; " >    1 | fieldset:"%string; " *    2 | > comment"%string; " *    3 | entry = value"%string; " *    4 | "%string; " *    5 | > comment"%string; " *    6 | entry = value"%string]) (0,0) (5,13).
Proof. vm_compute. reflexivity. Qed.

(* generated/errors/validation/test_expected_fields_got_list.py test_expecting_fields_but_getting_a_list_with_one_item_raises_the_expected_validationerror *)
Example t139 : (run (T ["list:"%string; "- item"%string]) string_loader
  (fun call =>
   let! _ := (let! x := ret (VO 0) in call x "fields"%string [AT (T ["list"%string])]) in
   ret VN))
  = TErr (T ["Only fields with the key 'list' were expected."%string]) (T ["   Line | Content"%string; " >    1 | list:"%string; " *    2 | - item"%string]) (0,0) (1,6).
Proof. vm_compute. reflexivity. Qed.

(* generated/errors/validation/test_expected_fields_got_list.py test_expecting_fields_but_getting_a_list_with_empty_lines_and_multiple_items_raises_the_expected_validationerror *)
Example t140 : (run (T ["list:"%string; ""%string; "- item"%string; ""%string; "- item"%string; ""%string; "- item"%string; ""%string]) string_loader
  (fun call =>
   let! _ := (let! x := ret (VO 0) in call x "fields"%string [AT (T ["list"%string])]) in
   ret VN))
  = TErr (T ["Only fields with the key 'list' were expected."%string]) (T ["   Line | Content"%string; " >    1 | list:"%string; " *    2 | "%string; " *    3 | - item"%string; " *    4 | "%string; " *    5 | - item"%string; " *    6 | "%string; " *    7 | - item"%string; "      8 | "%string]) (0,0) (6,6).
Proof. vm_compute. reflexivity. Qed.

(* generated/errors/validation/test_expected_fields_got_list.py test_expecting_fields_but_getting_a_list_with_two_items_with_comments_raises_the_expected_validationerror *)
Example t141 : (run (T ["list:"%string; "> comment"%string; "- item"%string; ""%string; "> comment"%string; "- item"%string]) string_loader
  (fun call =>
   let! _ := (let! x := ret (VO 0) in call x "fields"%string [AT (T ["list"%string])]) in
   ret VN))
  = TErr (T ["Only fields with the key 'list' were expected."%string]) (T ["   Line | Content"%string; " >    1 | list:"%string; " *    2 | > comment"%string; " *    3 | - item"%string; " *    4 | "%string; " *    5 | > comment"%string; " *    6 | - item"%string]) (0,0) (5,6).
Proof. vm_compute. reflexivity. Qed.

(* generated/errors/validation/test_expected_fields_got_section.py test_expecting_fields_but_getting_an_empty_section_raises_the_expected_validationerror *)
Example t142 : (run (T ["# section"%string]) string_loader
  (fun call =>
   let! _ := (let! x := ret (VO 0) in call x "fields"%string [AT (T ["section"%string])]) in
   ret VN))
  = TErr (T ["Only fields with the key 'section' were expected."%string]) (T ["   Line | Content"%string; " >    1 | # section"%string]) (0,0) (0,9).
Proof. vm_compute. reflexivity. Qed.

(* generated/errors/validation/test_expected_fields_got_section.py test_expecting_fields_but_getting_a_section_with_a_field_and_a_list_raises_the_expected_validationerror *)
Example t143 : (run (T ["# section"%string; ""%string; "field: value"%string; ""%string; "list:"%string; "- item"%string; "- item"%string]) string_loader
  (fun call =>
   let! _ := (let! x := ret (VO 0) in call x "fields"%string [AT (T ["section"%string])]) in
   ret VN))
  = TErr (T ["Only fields with the key 'section' were expected."%string]) (T ["   Line | Content"%string; " >    1 | # section"%string; " *    2 | "%string; " *    3 | field: value"%string; " *    4 | "%string; " *    5 | list:"%string; " *    6 | - item"%string; " *    7 | - item"%string]) (0,0) (6,6).
Proof. vm_compute. reflexivity. Qed.

(* generated/errors/validation/test_expected_fields_got_section.py test_expecting_fields_but_getting_a_section_with_subsections_raises_the_expected_validationerror *)
Example t144 : (run (T ["# section"%string; ""%string; "## subsection"%string; ""%string; "field: value"%string; ""%string; "## subsection"%string; ""%string; "list:"%string; "- item"%string; "- item"%string]) string_loader
  (fun call =>
   let! _ := (let! x := ret (VO 0) in call x "fields"%string [AT (T ["section"%string])]) in
   ret VN))
  = TErr (T ["Only fields with the key 'section' were expected."%string]) (T ["   Line | Content"%string; " >    1 | # section"%string; " *    2 | "%string; " *    3 | ## subsection"%string; " *    4 | "%string; " *    5 | field: value"%string; " *    6 | "%string; " *    7 | ## subsection"%string; " *    8 | "%string; " *    9 | list:"%string; " *   10 | - item"%string; " *   11 | - item"%string]) (0,0) (10,6).
Proof. vm_compute. reflexivity. Qed.

(* generated/errors/validation/test_expected_fieldset_entry_got_fieldset_entries.py test_expecting_a_fieldset_entry_but_getting_two_fieldset_entries_raises_the_expected_validationerror *)
Example t145 : (run (T ["fieldset:"%string; "entry = value"%string; "entry = value"%string]) string_loader
  (fun call =>
   let! _ := (let! x := (let! x := ret (VO 0) in call x "fieldset"%string [AT (T ["fieldset"%string])]) in call x "entry"%string [AT (T ["entry"%string])]) in
   ret VN))
  = TErr (T ["Only a single fieldset entry with the key 'entry' was expected."%string]) (T ["   Line | Content"%string; "      1 | fieldset:"%string; " >    2 | entry = value"%string; " >    3 | entry = value"%string]) (1,0) (1,13).
Proof. vm_compute. reflexivity. Qed.

(* generated/errors/validation/test_expected_fieldset_entry_got_fieldset_entries.py test_expecting_a_fieldset_entry_but_getting_two_fieldset_entries_with_comments_empty_lines_and_continuations_raises_the_ *)
Example t146 : (run (T ["fieldset:"%string; "> comment"%string; "entry = value"%string; "\ continuation"%string; "\ continuation"%string; ""%string; "> comment"%string; "entry = value"%string; "| continuation"%string]) string_loader
  (fun call =>
   let! _ := (let! x := (let! x := ret (VO 0) in call x "fieldset"%string [AT (T ["fieldset"%string])]) in call x "entry"%string [AT (T ["entry"%string])]) in
   ret VN))
  = TErr (T ["Only a single fieldset entry with the key 'entry' was expected."%string]) (T ["   Line | Content"%string; "      1 | fieldset:"%string; "      2 | > comment"%string; " >    3 | entry = value"%string; " *    4 | \ continuation"%string; " *    5 | \ continuation"%string; "      6 | "%string; "      7 | > comment"%string; " >    8 | entry = value"%string; " *    9 | | continuation"%string]) (2,0) (4,14).
Proof. vm_compute. reflexivity. Qed.

(* generated/errors/validation/test_expected_fieldset_got_field.py test_expecting_a_fieldset_but_getting_a_field_raises_the_expected_validationerror *)
Example t147 : (run (T ["field: value"%string]) string_loader
  (fun call =>
   let! _ := (let! x := ret (VO 0) in call x "fieldset"%string [AT (T ["field"%string])]) in
   ret VN))
  = TErr (T ["A fieldset with the key 'field' was expected."%string]) (T ["   Line | Content"%string; " >    1 | field: value"%string]) (0,0) (0,12).
Proof. vm_compute. reflexivity. Qed.

(* generated/errors/validation/test_expected_fieldset_got_field.py test_expecting_a_fieldset_but_getting_a_field_with_continuations_raises_the_expected_validationerror *)
Example t148 : (run (T ["field:"%string; "| continuation"%string; "| continuation"%string]) string_loader
  (fun call =>
   let! _ := (let! x := ret (VO 0) in call x "fieldset"%string [AT (T ["field"%string])]) in
   ret VN))
  = TErr (T ["A fieldset with the key 'field' was expected."%string]) (T ["   Line | Content"%string; " >    1 | field:"%string; " *    2 | | continuation"%string; " *    3 | | continuation"%string]) (0,0) (2,14).
Proof. vm_compute. reflexivity. Qed.

(* generated/errors/validation/test_expected_fieldset_got_field.py test_expecting_a_fieldset_but_getting_a_field_with_continuations_separated_by_idle_lines_raises_the_expected_validatione *)
Example t149 : (run (T ["field: value"%string; "| continuation"%string; "| continuation"%string; ""%string; "> comment"%string; "| continuation"%string]) string_loader
  (fun call =>
   let! _ := (let! x := ret (VO 0) in call x "fieldset"%string [AT (T ["field"%string])]) in
   ret VN))
  = TErr (T ["A fieldset with the key 'field' was expected."%string]) (T ["   Line | Content"%string; " >    1 | field: value"%string; " *    2 | | continuation"%string; " *    3 | | continuation"%string; " *    4 | "%string; " *    5 | > comment"%string; " *    6 | | continuation"%string]) (0,0) (5,14).
Proof. vm_compute. reflexivity. Qed.

(* generated/errors/validation/test_expected_fieldset_got_fieldsets.py test_expecting_a_fieldset_but_getting_two_fieldsets_raises_the_expected_validationerror *)
Example t150 : (run (T ["fieldset:"%string; "entry = value"%string; "fieldset:"%string; "entry = value"%string]) string_loader
  (fun call =>
   let! _ := (let! x := ret (VO 0) in call x "fieldset"%string [AT (T ["fieldset"%string])]) in
   ret VN))
  = TErr (T ["Only a single fieldset with the key 'fieldset' was expected."%string]) (T ["   Line | Content"%string; " >    1 | fieldset:"%string; " *    2 | entry = value"%string; " >    3 | fieldset:"%string; " *    4 | entry = value"%string]) (0,0) (1,13).
Proof. vm_compute. reflexivity. Qed.

(* generated/errors/validation/test_expected_fieldset_got_fieldsets.py test_expecting_a_fieldset_but_getting_two_fieldsets_with_comments_empty_lines_and_continuations_raises_the_expected_vali *)
Example t151 : (run (T ["> comment"%string; "fieldset:"%string; "entry = value"%string; ""%string; "entry = value"%string; ""%string; "fieldset:"%string; "> comment"%string; "entry = value"%string]) string_loader
  (fun call =>
   let! _ := (let! x := ret (VO 0) in call x "fieldset"%string [AT (T ["fieldset"%string])]) in
   ret VN))
  = TErr (T ["Only a single fieldset with the key 'fieldset' was expected."%string]) (T ["   Line | Content"%string; "      1 | > comment"%string; " >    2 | fieldset:"%string; " *    3 | entry = value"%string; " *    4 | "%string; " *    5 | entry = value"%string; "      6 | "%string; " >    7 | fieldset:"%string; " *    8 | > comment"%string; " *    9 | entry = value"%string]) (1,0) (4,13).
Proof. vm_compute. reflexivity. Qed.

(* generated/errors/validation/test_expected_fieldset_got_list.py test_expecting_a_fieldset_but_getting_a_list_with_one_item_raises_the_expected_validationerror *)
Example t152 : (run (T ["list:"%string; "- item"%string]) string_loader
  (fun call =>
   let! _ := (let! x := ret (VO 0) in call x "fieldset"%string [AT (T ["list"%string])]) in
   ret VN))
  = TErr (T ["A fieldset with the key 'list' was expected."%string]) (T ["   Line | Content"%string; " >    1 | list:"%string; " *    2 | - item"%string]) (0,0) (1,6).
Proof. vm_compute. reflexivity. Qed.

(* generated/errors/validation/test_expected_fieldset_got_list.py test_expecting_a_fieldset_but_getting_a_list_with_empty_lines_and_multiple_items_raises_the_expected_validationerror *)
Example t153 : (run (T ["list:"%string; ""%string; "- item"%string; ""%string; "- item"%string; ""%string; "- item"%string; ""%string]) string_loader
  (fun call =>
   let! _ := (let! x := ret (VO 0) in call x "fieldset"%string [AT (T ["list"%string])]) in
   ret VN))
  = TErr (T ["A fieldset with the key 'list' was expected."%string]) (T ["   Line | Content"%string; " >    1 | list:"%string; " *    2 | "%string; " *    3 | - item"%string; " *    4 | "%string; " *    5 | - item"%string; " *    6 | "%string; " *    7 | - item"%string; "      8 | "%string]) (0,0) (6,6).
Proof. vm_compute. reflexivity. Qed.

(* generated/errors/validation/test_expected_fieldset_got_list.py test_expecting_a_fieldset_but_getting_a_list_with_two_items_with_comments_raises_the_expected_validationerror *)
Example t154 : (run (T ["list:"%string; "> comment"%string; "- item"%string; ""%string; "> comment"%string; "- item"%string]) string_loader
  (fun call =>
   let! _ := (let! x := ret (VO 0) in call x "fieldset"%string [AT (T ["list"%string])]) in
   ret VN))
  = TErr (T ["A fieldset with the key 'list' was expected."%string]) (T ["   Line | Content"%string; " >    1 | list:"%string; " *    2 | > comment"%string; " *    3 | - item"%string; " *    4 | "%string; " *    5 | > comment"%string; " *    6 | - item"%string]) (0,0) (5,6).
Proof. vm_compute. reflexivity. Qed.

(* generated/errors/validation/test_expected_fieldset_got_section.py test_expecting_a_fieldset_but_getting_an_empty_section_raises_the_expected_validationerror *)
Example t155 : (run (T ["# section"%string]) string_loader
  (fun call =>
   let! _ := (let! x := ret (VO 0) in call x "fieldset"%string [AT (T ["section"%string])]) in
   ret VN))
  = TErr (T ["A fieldset with the key 'section' was expected."%string]) (T ["   Line | Content"%string; " >    1 | # section"%string]) (0,0) (0,9).
Proof. vm_compute. reflexivity. Qed.

(* generated/errors/validation/test_expected_fieldset_got_section.py test_expecting_a_fieldset_but_getting_a_section_with_a_field_and_a_list_raises_the_expected_validationerror *)
Example t156 : (run (T ["# section"%string; ""%string; "field: value"%string; ""%string; "list:"%string; "- item"%string; "- item"%string]) string_loader
  (fun call =>
   let! _ := (let! x := ret (VO 0) in call x "fieldset"%string [AT (T ["section"%string])]) in
   ret VN))
  = TErr (T ["A fieldset with the key 'section' was expected."%string]) (T ["   Line | Content"%string; " >    1 | # section"%string; " *    2 | "%string; " *    3 | field: value"%string; " *    4 | "%string; " *    5 | list:"%string; " *    6 | - item"%string; " *    7 | - item"%string]) (0,0) (6,6).
Proof. vm_compute. reflexivity. Qed.

(* generated/errors/validation/test_expected_fieldset_got_section.py test_expecting_a_fieldset_but_getting_a_section_with_subsections_raises_the_expected_validationerror *)
Example t157 : (run (T ["# section"%string; ""%string; "## subsection"%string; ""%string; "field: value"%string; ""%string; "## subsection"%string; ""%string; "list:"%string; "- item"%string; "- item"%string]) string_loader
  (fun call =>
   let! _ := (let! x := ret (VO 0) in call x "fieldset"%string [AT (T ["section"%string])]) in
   ret VN))
  = TErr (T ["A fieldset with the key 'section' was expected."%string]) (T ["   Line | Content"%string; " >    1 | # section"%string; " *    2 | "%string; " *    3 | ## subsection"%string; " *    4 | "%string; " *    5 | field: value"%string; " *    6 | "%string; " *    7 | ## subsection"%string; " *    8 | "%string; " *    9 | list:"%string; " *   10 | - item"%string; " *   11 | - item"%string]) (0,0) (10,6).
Proof. vm_compute. reflexivity. Qed.

(* generated/errors/validation/test_expected_fieldsets_got_field.py test_expecting_fieldsets_but_getting_a_field_raises_the_expected_validationerror *)
Example t158 : (run (T ["field: value"%string]) string_loader
  (fun call =>
   let! _ := (let! x := ret (VO 0) in call x "fieldsets"%string [AT (T ["field"%string])]) in
   ret VN))
  = TErr (T ["Only fieldsets with the key 'field' were expected."%string]) (T ["   Line | Content"%string; " >    1 | field: value"%string]) (0,0) (0,12).
Proof. vm_compute. reflexivity. Qed.

(* generated/errors/validation/test_expected_fieldsets_got_field.py test_expecting_fieldsets_but_getting_a_field_with_continuations_raises_the_expected_validationerror *)
Example t159 : (run (T ["field:"%string; "| continuation"%string; "| continuation"%string]) string_loader
  (fun call =>
   let! _ := (let! x := ret (VO 0) in call x "fieldsets"%string [AT (T ["field"%string])]) in
   ret VN))
  = TErr (T ["Only fieldsets with the key 'field' were expected."%string]) (T ["   Line | Content"%string; " >    1 | field:"%string; " *    2 | | continuation"%string; " *    3 | | continuation"%string]) (0,0) (2,14).
Proof. vm_compute. reflexivity. Qed.

(* generated/errors/validation/test_expected_fieldsets_got_field.py test_expecting_fieldsets_but_getting_a_field_with_continuations_separated_by_idle_lines_raises_the_expected_validationer *)
Example t160 : (run (T ["field: value"%string; "| continuation"%string; "| continuation"%string; ""%string; "> comment"%string; "| continuation"%string]) string_loader
  (fun call =>
   let! _ := (let! x := ret (VO 0) in call x "fieldsets"%string [AT (T ["field"%string])]) in
   ret VN))
  = TErr (T ["Only fieldsets with the key 'field' were expected."%string]) (T ["   Line | Content"%string; " >    1 | field: value"%string; " *    2 | | continuation"%string; " *    3 | | continuation"%string; " *    4 | "%string; " *    5 | > comment"%string; " *    6 | | continuation"%string]) (0,0) (5,14).
Proof. vm_compute. reflexivity. Qed.

(* generated/errors/validation/test_expected_fieldsets_got_list.py test_expecting_fieldsets_but_getting_a_list_with_one_item_raises_the_expected_validationerror *)
Example t161 : (run (T ["list:"%string; "- item"%string]) string_loader
  (fun call =>
   let! _ := (let! x := ret (VO 0) in call x "fieldsets"%string [AT (T ["list"%string])]) in
   ret VN))
  = TErr (T ["Only fieldsets with the key 'list' were expected."%string]) (T ["   Line | Content"%string; " >    1 | list:"%string; " *    2 | - item"%string]) (0,0) (1,6).
Proof. vm_compute. reflexivity. Qed.

(* generated/errors/validation/test_expected_fieldsets_got_list.py test_expecting_fieldsets_but_getting_a_list_with_empty_lines_and_multiple_items_raises_the_expected_validationerror *)
Example t162 : (run (T ["list:"%string; ""%string; "- item"%string; ""%string; "- item"%string; ""%string; "- item"%string; ""%string]) string_loader
  (fun call =>
   let! _ := (let! x := ret (VO 0) in call x "fieldsets"%string [AT (T ["list"%string])]) in
   ret VN))
  = TErr (T ["Only fieldsets with the key 'list' were expected."%string]) (T ["   Line | Content"%string; " >    1 | list:"%string; " *    2 | "%string; " *    3 | - item"%string; " *    4 | "%string; " *    5 | - item"%string; " *    6 | "%string; " *    7 | - item"%string; "      8 | "%string]) (0,0) (6,6).
Proof. vm_compute. reflexivity. Qed.

(* generated/errors/validation/test_expected_fieldsets_got_list.py test_expecting_fieldsets_but_getting_a_list_with_two_items_with_comments_raises_the_expected_validationerror *)
Example t163 : (run (T ["list:"%string; "> comment"%string; "- item"%string; ""%string; "> comment"%string; "- item"%string]) string_loader
  (fun call =>
   let! _ := (let! x := ret (VO 0) in call x "fieldsets"%string [AT (T ["list"%string])]) in
   ret VN))
  = TErr (T ["Only fieldsets with the key 'list' were expected."%string]) (T ["   Line | Content"%string; " >    1 | list:"%string; " *    2 | > comment"%string; " *    3 | - item"%string; " *    4 | "%string; " *    5 | > comment"%string; " *    6 | - item"%string]) (0,0) (5,6).
Proof. vm_compute. reflexivity. Qed.

(* generated/errors/validation/test_expected_fieldsets_got_section.py test_expecting_fieldsets_but_getting_an_empty_section_raises_the_expected_validationerror *)
Example t164 : (run (T ["# section"%string]) string_loader
  (fun call =>
   let! _ := (let! x := ret (VO 0) in call x "fieldsets"%string [AT (T ["section"%string])]) in
   ret VN))
  = TErr (T ["Only fieldsets with the key 'section' were expected."%string]) (T ["   Line | Content"%string; " >    1 | # section"%string]) (0,0) (0,9).
Proof. vm_compute. reflexivity. Qed.

(* generated/errors/validation/test_expected_fieldsets_got_section.py test_expecting_fieldsets_but_getting_a_section_with_a_field_and_a_list_raises_the_expected_validationerror *)
Example t165 : (run (T ["# section"%string; ""%string; "field: value"%string; ""%string; "list:"%string; "- item"%string; "- item"%string]) string_loader
  (fun call =>
   let! _ := (let! x := ret (VO 0) in call x "fieldsets"%string [AT (T ["section"%string])]) in
   ret VN))
  = TErr (T ["Only fieldsets with the key 'section' were expected."%string]) (T ["   Line | Content"%string; " >    1 | # section"%string; " *    2 | "%string; " *    3 | field: value"%string; " *    4 | "%string; " *    5 | list:"%string; " *    6 | - item"%string; " *    7 | - item"%string]) (0,0) (6,6).
Proof. vm_compute. reflexivity. Qed.

(* generated/errors/validation/test_expected_fieldsets_got_section.py test_expecting_fieldsets_but_getting_a_section_with_subsections_raises_the_expected_validationerror *)
Example t166 : (run (T ["# section"%string; ""%string; "## subsection"%string; ""%string; "field: value"%string; ""%string; "## subsection"%string; ""%string; "list:"%string; "- item"%string; "- item"%string]) string_loader
  (fun call =>
   let! _ := (let! x := ret (VO 0) in call x "fieldsets"%string [AT (T ["section"%string])]) in
   ret VN))
  = TErr (T ["Only fieldsets with the key 'section' were expected."%string]) (T ["   Line | Content"%string; " >    1 | # section"%string; " *    2 | "%string; " *    3 | ## subsection"%string; " *    4 | "%string; " *    5 | field: value"%string; " *    6 | "%string; " *    7 | ## subsection"%string; " *    8 | "%string; " *    9 | list:"%string; " *   10 | - item"%string; " *   11 | - item"%string]) (0,0) (10,6).
Proof. vm_compute. reflexivity. Qed.

(* generated/errors/validation/test_expected_list_got_field.py test_expecting_a_list_but_getting_a_field_raises_the_expected_validationerror *)
Example t167 : (run (T ["field: value"%string]) string_loader
  (fun call =>
   let! _ := (let! x := ret (VO 0) in call x "list"%string [AT (T ["field"%string])]) in
   ret VN))
  = TErr (T ["A list with the key 'field' was expected."%string]) (T ["   Line | Content"%string; " >    1 | field: value"%string]) (0,0) (0,12).
Proof. vm_compute. reflexivity. Qed.

(* generated/errors/validation/test_expected_list_got_field.py test_expecting_a_list_but_getting_a_field_with_continuations_raises_the_expected_validationerror *)
Example t168 : (run (T ["field:"%string; "| continuation"%string; "| continuation"%string]) string_loader
  (fun call =>
   let! _ := (let! x := ret (VO 0) in call x "list"%string [AT (T ["field"%string])]) in
   ret VN))
  = TErr (T ["A list with the key 'field' was expected."%string]) (T ["   Line | Content"%string; " >    1 | field:"%string; " *    2 | | continuation"%string; " *    3 | | continuation"%string]) (0,0) (2,14).
Proof. vm_compute. reflexivity. Qed.

(* generated/errors/validation/test_expected_list_got_field.py test_expecting_a_list_but_getting_a_field_with_continuations_separated_by_idle_lines_raises_the_expected_validationerror *)
Example t169 : (run (T ["field: value"%string; "| continuation"%string; "| continuation"%string; ""%string; "> comment"%string; "| continuation"%string]) string_loader
  (fun call =>
   let! _ := (let! x := ret (VO 0) in call x "list"%string [AT (T ["field"%string])]) in
   ret VN))
  = TErr (T ["A list with the key 'field' was expected."%string]) (T ["   Line | Content"%string; " >    1 | field: value"%string; " *    2 | | continuation"%string; " *    3 | | continuation"%string; " *    4 | "%string; " *    5 | > comment"%string; " *    6 | | continuation"%string]) (0,0) (5,14).
Proof. vm_compute. reflexivity. Qed.

(* generated/errors/validation/test_expected_list_got_fieldset.py test_expecting_a_list_but_getting_a_fieldset_with_one_item_raises_the_expected_validationerror *)
Example t170 : (run (T ["fieldset:"%string; "entry = value"%string]) string_loader
  (fun call =>
   let! _ := (let! x := ret (VO 0) in call x "list"%string [AT (T ["fieldset"%string])]) in
   ret VN))
  = TErr (T ["A list with the key 'fieldset' was expected."%string]) (T ["   Line | Content"%string; " >    1 | fieldset:"%string; " *    2 | entry = value"%string]) (0,0) (1,13).
Proof. vm_compute. reflexivity. Qed.

(* generated/errors/validation/test_expected_list_got_fieldset.py test_expecting_a_list_but_getting_a_fieldset_with_empty_lines_and_multiple_entries_raises_the_expected_validationerror *)
Example t171 : (run (T ["fieldset:"%string; ""%string; "entry = value"%string; ""%string; "entry = value"%string; ""%string; "entry = value"%string; ""%string]) string_loader
  (fun call =>
   let! _ := (let! x := ret (VO 0) in call x "list"%string [AT (T ["fieldset"%string])]) in
   ret VN))
  = TErr (T ["A list with the key 'fieldset' was expected."%string]) (T ["   Line | Content"%string; " >    1 | fieldset:"%string; " *    2 | "%string; " *    3 | entry = value"%string; " *    4 | "%string; " *    5 | entry = value"%string; " *    6 | "%string; " *    7 | entry = value"%string; "      8 | "%string]) (0,0) (6,13).
Proof. vm_compute. reflexivity. Qed.

(* generated/errors/validation/test_expected_list_got_fieldset.py test_expecting_a_list_but_getting_a_fieldset_with_two_entries_with_comments_raises_the_expected_validationerror *)
Example t172 : (run (T ["fieldset:"%string; "> comment"%string; "entry = value"%string; ""%string; "> comment"%string; "entry = value"%string]) string_loader
  (fun call =>
   let! _ := (let! x := ret (VO 0) in call x "list"%string [AT (T ["fieldset"%string])]) in
   ret VN))
  = TErr (T ["A list with the key 'fieldset' was expected."%string]) (T ["   Line | Content"%string; " >    1 | fieldset:"%string; " *    2 | > comment"%string; " *    3 | entry = value"%string; " *    4 | "%string; " *    5 | > comment"%string; " *    6 | entry = value"%string]) (0,0) (5,13).
Proof. vm_compute. reflexivity. Qed.

(* generated/errors/validation/test_expected_list_got_lists.py test_expecting_a_list_but_getting_two_lists_raises_the_expected_validationerror *)
Example t173 : (run (T ["list:"%string; "- item"%string; "list:"%string; "- item"%string]) string_loader
  (fun call =>
   let! _ := (let! x := ret (VO 0) in call x "list"%string [AT (T ["list"%string])]) in
   ret VN))
  = TErr (T ["Only a single list with the key 'list' was expected."%string]) (T ["   Line | Content"%string; " >    1 | list:"%string; " *    2 | - item"%string; " >    3 | list:"%string; " *    4 | - item"%string]) (0,0) (1,6).
Proof. vm_compute. reflexivity. Qed.

(* generated/errors/validation/test_expected_list_got_lists.py test_expecting_a_list_but_getting_two_lists_with_comments_empty_lines_and_continuations_raises_the_expected_validationer *)
Example t174 : (run (T ["> comment"%string; "list:"%string; "- item"%string; ""%string; "- item"%string; ""%string; "list:"%string; "> comment"%string; "- item"%string; "\ continuation"%string]) string_loader
  (fun call =>
   let! _ := (let! x := ret (VO 0) in call x "list"%string [AT (T ["list"%string])]) in
   ret VN))
  = TErr (T ["Only a single list with the key 'list' was expected."%string]) (T ["   Line | Content"%string; "      1 | > comment"%string; " >    2 | list:"%string; " *    3 | - item"%string; " *    4 | "%string; " *    5 | - item"%string; "      6 | "%string; " >    7 | list:"%string; " *    8 | > comment"%string; " *    9 | - item"%string; " *   10 | \ continuation"%string]) (1,0) (4,6).
Proof. vm_compute. reflexivity. Qed.

(* generated/errors/validation/test_expected_list_got_section.py test_expecting_a_list_but_getting_an_empty_section_raises_the_expected_validationerror *)
Example t175 : (run (T ["# section"%string]) string_loader
  (fun call =>
   let! _ := (let! x := ret (VO 0) in call x "list"%string [AT (T ["section"%string])]) in
   ret VN))
  = TErr (T ["A list with the key 'section' was expected."%string]) (T ["   Line | Content"%string; " >    1 | # section"%string]) (0,0) (0,9).
Proof. vm_compute. reflexivity. Qed.

(* generated/errors/validation/test_expected_list_got_section.py test_expecting_a_list_but_getting_a_section_with_a_field_and_a_list_raises_the_expected_validationerror *)
Example t176 : (run (T ["# section"%string; ""%string; "field: value"%string; ""%string; "list:"%string; "- item"%string; "- item"%string]) string_loader
  (fun call =>
   let! _ := (let! x := ret (VO 0) in call x "list"%string [AT (T ["section"%string])]) in
   ret VN))
  = TErr (T ["A list with the key 'section' was expected."%string]) (T ["   Line | Content"%string; " >    1 | # section"%string; " *    2 | "%string; " *    3 | field: value"%string; " *    4 | "%string; " *    5 | list:"%string; " *    6 | - item"%string; " *    7 | - item"%string]) (0,0) (6,6).
Proof. vm_compute. reflexivity. Qed.

(* generated/errors/validation/test_expected_list_got_section.py test_expecting_a_list_but_getting_a_section_with_subsections_raises_the_expected_validationerror *)
Example t177 : (run (T ["# section"%string; ""%string; "## subsection"%string; ""%string; "field: value"%string; ""%string; "## subsection"%string; ""%string; "list:"%string; "- item"%string; "- item"%string]) string_loader
  (fun call =>
   let! _ := (let! x := ret (VO 0) in call x "list"%string [AT (T ["section"%string])]) in
   ret VN))
  = TErr (T ["A list with the key 'section' was expected."%string]) (T ["   Line | Content"%string; " >    1 | # section"%string; " *    2 | "%string; " *    3 | ## subsection"%string; " *    4 | "%string; " *    5 | field: value"%string; " *    6 | "%string; " *    7 | ## subsection"%string; " *    8 | "%string; " *    9 | list:"%string; " *   10 | - item"%string; " *   11 | - item"%string]) (0,0) (10,6).
Proof. vm_compute. reflexivity. Qed.

(* generated/errors/validation/test_expected_lists_got_field.py test_expecting_lists_but_getting_a_field_raises_the_expected_validationerror *)
Example t178 : (run (T ["field: value"%string]) string_loader
  (fun call =>
   let! _ := (let! x := ret (VO 0) in call x "lists"%string [AT (T ["field"%string])]) in
   ret VN))
  = TErr (T ["Only lists with the key 'field' were expected."%string]) (T ["   Line | Content"%string; " >    1 | field: value"%string]) (0,0) (0,12).
Proof. vm_compute. reflexivity. Qed.

(* generated/errors/validation/test_expected_lists_got_field.py test_expecting_lists_but_getting_a_field_with_continuations_raises_the_expected_validationerror *)
Example t179 : (run (T ["field:"%string; "| continuation"%string; "| continuation"%string]) string_loader
  (fun call =>
   let! _ := (let! x := ret (VO 0) in call x "lists"%string [AT (T ["field"%string])]) in
   ret VN))
  = TErr (T ["Only lists with the key 'field' were expected."%string]) (T ["   Line | Content"%string; " >    1 | field:"%string; " *    2 | | continuation"%string; " *    3 | | continuation"%string]) (0,0) (2,14).
Proof. vm_compute. reflexivity. Qed.

(* generated/errors/validation/test_expected_lists_got_field.py test_expecting_lists_but_getting_a_field_with_continuations_separated_by_idle_lines_raises_the_expected_validationerror *)
Example t180 : (run (T ["field: value"%string; "| continuation"%string; "| continuation"%string; ""%string; "> comment"%string; "| continuation"%string]) string_loader
  (fun call =>
   let! _ := (let! x := ret (VO 0) in call x "lists"%string [AT (T ["field"%string])]) in
   ret VN))
  = TErr (T ["Only lists with the key 'field' were expected."%string]) (T ["   Line | Content"%string; " >    1 | field: value"%string; " *    2 | | continuation"%string; " *    3 | | continuation"%string; " *    4 | "%string; " *    5 | > comment"%string; " *    6 | | continuation"%string]) (0,0) (5,14).
Proof. vm_compute. reflexivity. Qed.

(* generated/errors/validation/test_expected_lists_got_fieldset.py test_expecting_lists_but_getting_a_fieldset_with_one_item_raises_the_expected_validationerror *)
Example t181 : (run (T ["fieldset:"%string; "entry = value"%string]) string_loader
  (fun call =>
   let! _ := (let! x := ret (VO 0) in call x "lists"%string [AT (T ["fieldset"%string])]) in
   ret VN))
  = TErr (T ["Only lists with the key 'fieldset' were expected."%string]) (T ["   Line | Content"%string; " >    1 | fieldset:"%string; " *    2 | entry = value"%string]) (0,0) (1,13).
Proof. vm_compute. reflexivity. Qed.

(* generated/errors/validation/test_expected_lists_got_fieldset.py test_expecting_lists_but_getting_a_fieldset_with_empty_lines_and_multiple_entries_raises_the_expected_validationerror *)
Example t182 : (run (T ["fieldset:"%string; ""%string; "entry = value"%string; ""%string; "entry = value"%string; ""%string; "entry = value"%string; ""%string]) string_loader
  (fun call =>
   let! _ := (let! x := ret (VO 0) in call x "lists"%string [AT (T ["fieldset"%string])]) in
   ret VN))
  = TErr (T ["Only lists with the key 'fieldset' were expected."%string]) (T ["   Line | Content"%string; " >    1 | fieldset:"%string; " *    2 | "%string; " *    3 | entry = value"%string; " *    4 | "%string; " *    5 | entry = value"%string; " *    6 | "%string; " *    7 | entry = value"%string; "      8 | "%string]) (0,0) (6,13).
Proof. vm_compute. reflexivity. Qed.

(* generated/errors/validation/test_expected_lists_got_fieldset.py test_expecting_lists_but_getting_a_fieldset_with_two_entries_with_comments_raises_the_expected_validationerror *)
Example t183 : (run (T ["fieldset:"%string; "> comment"%string; "entry = value"%string; ""%string; "> comment"%string; "entry = value"%string]) string_loader
  (fun call =>
   let! _ := (let! x := ret (VO 0) in call x "lists"%string [AT (T ["fieldset"%string])]) in
   ret VN))
  = TErr (T ["Only lists with the key 'fieldset' were expected."%string]) (T ["   Line | Content"%string; " >    1 | fieldset:"%string; " *    2 | > comment"%string; " *    3 | entry = value"%string; " *    4 | "%string; " *    5 | > comment"%string; " *    6 | entry = value"%string]) (0,0) (5,13).
Proof. vm_compute. reflexivity. Qed.

(* generated/errors/validation/test_expected_lists_got_section.py test_expecting_lists_but_getting_an_empty_section_raises_the_expected_validationerror *)
Example t184 : (run (T ["# section"%string]) string_loader
  (fun call =>
   let! _ := (let! x := ret (VO 0) in call x "lists"%string [AT (T ["section"%string])]) in
   ret VN))
  = TErr (T ["Only lists with the key 'section' were expected."%string]) (T ["   Line | Content"%string; " >    1 | # section"%string]) (0,0) (0,9).
Proof. vm_compute. reflexivity. Qed.

(* generated/errors/validation/test_expected_lists_got_section.py test_expecting_lists_but_getting_a_section_with_a_field_and_a_list_raises_the_expected_validationerror *)
Example t185 : (run (T ["# section"%string; ""%string; "field: value"%string; ""%string; "list:"%string; "- item"%string; "- item"%string]) string_loader
  (fun call =>
   let! _ := (let! x := ret (VO 0) in call x "lists"%string [AT (T ["section"%string])]) in
   ret VN))
  = TErr (T ["Only lists with the key 'section' were expected."%string]) (T ["   Line | Content"%string; " >    1 | # section"%string; " *    2 | "%string; " *    3 | field: value"%string; " *    4 | "%string; " *    5 | list:"%string; " *    6 | - item"%string; " *    7 | - item"%string]) (0,0) (6,6).
Proof. vm_compute. reflexivity. Qed.

(* generated/errors/validation/test_expected_lists_got_section.py test_expecting_lists_but_getting_a_section_with_subsections_raises_the_expected_validationerror *)
Example t186 : (run (T ["# section"%string; ""%string; "## subsection"%string; ""%string; "field: value"%string; ""%string; "## subsection"%string; ""%string; "list:"%string; "- item"%string; "- item"%string]) string_loader
  (fun call =>
   let! _ := (let! x := ret (VO 0) in call x "lists"%string [AT (T ["section"%string])]) in
   ret VN))
  = TErr (T ["Only lists with the key 'section' were expected."%string]) (T ["   Line | Content"%string; " >    1 | # section"%string; " *    2 | "%string; " *    3 | ## subsection"%string; " *    4 | "%string; " *    5 | field: value"%string; " *    6 | "%string; " *    7 | ## subsection"%string; " *    8 | "%string; " *    9 | list:"%string; " *   10 | - item"%string; " *   11 | - item"%string]) (0,0) (10,6).
Proof. vm_compute. reflexivity. Qed.

(* generated/errors/validation/test_expected_section_got_empty.py test_expecting_a_section_but_getting_an_empty_element_raises_the_expected_validationerror *)
Example t187 : (run (T ["element:"%string]) string_loader
  (fun call =>
   let! _ := (let! x := ret (VO 0) in call x "section"%string [AT (T ["element"%string])]) in
   ret VN))
  = TErr (T ["A section with the key 'element' was expected."%string]) (T ["   Line | Content"%string; " >    1 | element:"%string]) (0,0) (0,8).
Proof. vm_compute. reflexivity. Qed.

(* generated/errors/validation/test_expected_section_got_field.py test_expecting_a_section_but_getting_a_field_raises_the_expected_validationerror *)
Example t188 : (run (T ["field: value"%string]) string_loader
  (fun call =>
   let! _ := (let! x := ret (VO 0) in call x "section"%string [AT (T ["field"%string])]) in
   ret VN))
  = TErr (T ["A section with the key 'field' was expected."%string]) (T ["   Line | Content"%string; " >    1 | field: value"%string]) (0,0) (0,12).
Proof. vm_compute. reflexivity. Qed.

(* generated/errors/validation/test_expected_section_got_field.py test_expecting_a_section_but_getting_a_field_with_continuations_raises_the_expected_validationerror *)
Example t189 : (run (T ["field:"%string; "| continuation"%string; "| continuation"%string]) string_loader
  (fun call =>
   let! _ := (let! x := ret (VO 0) in call x "section"%string [AT (T ["field"%string])]) in
   ret VN))
  = TErr (T ["A section with the key 'field' was expected."%string]) (T ["   Line | Content"%string; " >    1 | field:"%string; " *    2 | | continuation"%string; " *    3 | | continuation"%string]) (0,0) (2,14).
Proof. vm_compute. reflexivity. Qed.

(* generated/errors/validation/test_expected_section_got_field.py test_expecting_a_section_but_getting_a_field_with_continuations_separated_by_idle_lines_raises_the_expected_validationer *)
Example t190 : (run (T ["field: value"%string; "| continuation"%string; "| continuation"%string; ""%string; "> comment"%string; "| continuation"%string]) string_loader
  (fun call =>
   let! _ := (let! x := ret (VO 0) in call x "section"%string [AT (T ["field"%string])]) in
   ret VN))
  = TErr (T ["A section with the key 'field' was expected."%string]) (T ["   Line | Content"%string; " >    1 | field: value"%string; " *    2 | | continuation"%string; " *    3 | | continuation"%string; " *    4 | "%string; " *    5 | > comment"%string; " *    6 | | continuation"%string]) (0,0) (5,14).
Proof. vm_compute. reflexivity. Qed.

(* generated/errors/validation/test_expected_section_got_fieldset.py test_expecting_a_section_but_getting_a_fieldset_with_one_item_raises_the_expected_validationerror *)
Example t191 : (run (T ["fieldset:"%string; "entry = value"%string]) string_loader
  (fun call =>
   let! _ := (let! x := ret (VO 0) in call x "section"%string [AT (T ["fieldset"%string])]) in
   ret VN))
  = TErr (T ["A section with the key 'fieldset' was expected."%string]) (T ["   Line | Content"%string; " >    1 | fieldset:"%string; " *    2 | entry = value"%string]) (0,0) (1,13).
Proof. vm_compute. reflexivity. Qed.

(* generated/errors/validation/test_expected_section_got_fieldset.py test_expecting_a_section_but_getting_a_fieldset_with_empty_lines_and_multiple_entries_raises_the_expected_validationerro *)
Example t192 : (run (T ["fieldset:"%string; ""%string; "entry = value"%string; ""%string; "entry = value"%string; ""%string; "entry = value"%string; ""%string]) string_loader
  (fun call =>
   let! _ := (let! x := ret (VO 0) in call x "section"%string [AT (T ["fieldset"%string])]) in
   ret VN))
  = TErr (T ["A section with the key 'fieldset' was expected."%string]) (T ["   Line | Content"%string; " >    1 | fieldset:"%string; " *    2 | "%string; " *    3 | entry = value"%string; " *    4 | "%string; " *    5 | entry = value"%string; " *    6 | "%string; " *    7 | entry = value"%string; "      8 | "%string]) (0,0) (6,13).
Proof. vm_compute. reflexivity. Qed.

(* generated/errors/validation/test_expected_section_got_fieldset.py test_expecting_a_section_but_getting_a_fieldset_with_two_entries_with_comments_raises_the_expected_validationerror *)
Example t193 : (run (T ["fieldset:"%string; "> comment"%string; "entry = value"%string; ""%string; "> comment"%string; "entry = value"%string]) string_loader
  (fun call =>
   let! _ := (let! x := ret (VO 0) in call x "section"%string [AT (T ["fieldset"%string])]) in
   ret VN))
  = TErr (T ["A section with the key 'fieldset' was expected."%string]) (T ["   Line | Content"%string; " >    1 | fieldset:"%string; " *    2 | > comment"%string; " *    3 | entry = value"%string; " *    4 | "%string; " *    5 | > comment"%string; " *    6 | entry = value"%string]) (0,0) (5,13).
Proof. vm_compute. reflexivity. Qed.

(* generated/errors/validation/test_expected_section_got_list.py test_expecting_a_section_but_getting_a_list_with_one_item_raises_the_expected_validationerror *)
Example t194 : (run (T ["list:"%string; "- item"%string]) string_loader
  (fun call =>
   let! _ := (let! x := ret (VO 0) in call x "section"%string [AT (T ["list"%string])]) in
   ret VN))
  = TErr (T ["A section with the key 'list' was expected."%string]) (T ["   Line | Content"%string; " >    1 | list:"%string; " *    2 | - item"%string]) (0,0) (1,6).
Proof. vm_compute. reflexivity. Qed.

(* generated/errors/validation/test_expected_section_got_list.py test_expecting_a_section_but_getting_a_list_with_empty_lines_and_multiple_items_raises_the_expected_validationerror *)
Example t195 : (run (T ["list:"%string; ""%string; "- item"%string; ""%string; "- item"%string; ""%string; "- item"%string; ""%string]) string_loader
  (fun call =>
   let! _ := (let! x := ret (VO 0) in call x "section"%string [AT (T ["list"%string])]) in
   ret VN))
  = TErr (T ["A section with the key 'list' was expected."%string]) (T ["   Line | Content"%string; " >    1 | list:"%string; " *    2 | "%string; " *    3 | - item"%string; " *    4 | "%string; " *    5 | - item"%string; " *    6 | "%string; " *    7 | - item"%string; "      8 | "%string]) (0,0) (6,6).
Proof. vm_compute. reflexivity. Qed.

(* generated/errors/validation/test_expected_section_got_list.py test_expecting_a_section_but_getting_a_list_with_two_items_with_comments_raises_the_expected_validationerror *)
Example t196 : (run (T ["list:"%string; "> comment"%string; "- item"%string; ""%string; "> comment"%string; "- item"%string]) string_loader
  (fun call =>
   let! _ := (let! x := ret (VO 0) in call x "section"%string [AT (T ["list"%string])]) in
   ret VN))
  = TErr (T ["A section with the key 'list' was expected."%string]) (T ["   Line | Content"%string; " >    1 | list:"%string; " *    2 | > comment"%string; " *    3 | - item"%string; " *    4 | "%string; " *    5 | > comment"%string; " *    6 | - item"%string]) (0,0) (5,6).
Proof. vm_compute. reflexivity. Qed.

(* generated/errors/validation/test_expected_section_got_sections.py test_expecting_a_section_but_getting_two_sections_raises_the_expected_validationerror *)
Example t197 : (run (T ["# section"%string; ""%string; "# section"%string; ""%string]) string_loader
  (fun call =>
   let! _ := (let! x := ret (VO 0) in call x "section"%string [AT (T ["section"%string])]) in
   ret VN))
  = TErr (T ["Only a single section with the key 'section' was expected."%string]) (T ["   Line | Content"%string; " >    1 | # section"%string; "      2 | "%string; " >    3 | # section"%string; "      4 | "%string]) (0,0) (0,9).
Proof. vm_compute. reflexivity. Qed.

(* generated/errors/validation/test_expected_section_got_sections.py test_expecting_a_section_but_getting_two_sections_with_elements_empty_lines_and_continuations_raises_the_expected_valida *)
Example t198 : (run (T ["> comment"%string; "# section"%string; ""%string; "field: value"%string; ""%string; "# section"%string; ""%string; "list:"%string; "- item"%string; "\ continuation"%string; ""%string; "- item"%string]) string_loader
  (fun call =>
   let! _ := (let! x := ret (VO 0) in call x "section"%string [AT (T ["section"%string])]) in
   ret VN))
  = TErr (T ["Only a single section with the key 'section' was expected."%string]) (T ["   Line | Content"%string; "      1 | > comment"%string; " >    2 | # section"%string; " *    3 | "%string; " *    4 | field: value"%string; "      5 | "%string; " >    6 | # section"%string; " *    7 | "%string; " *    8 | list:"%string; " *    9 | - item"%string; " *   10 | \ continuation"%string; " *   11 | "%string; " *   12 | - item"%string]) (1,0) (3,12).
Proof. vm_compute. reflexivity. Qed.

(* generated/errors/validation/test_expected_sections_got_empty.py test_expecting_sections_but_getting_an_empty_element_raises_the_expected_validationerror *)
Example t199 : (run (T ["element:"%string]) string_loader
  (fun call =>
   let! _ := (let! x := ret (VO 0) in call x "sections"%string [AT (T ["element"%string])]) in
   ret VN))
  = TErr (T ["Only sections with the key 'element' were expected."%string]) (T ["   Line | Content"%string; " >    1 | element:"%string]) (0,0) (0,8).
Proof. vm_compute. reflexivity. Qed.

(* generated/errors/validation/test_expected_sections_got_field.py test_expecting_sections_but_getting_a_field_raises_the_expected_validationerror *)
Example t200 : (run (T ["field: value"%string]) string_loader
  (fun call =>
   let! _ := (let! x := ret (VO 0) in call x "sections"%string [AT (T ["field"%string])]) in
   ret VN))
  = TErr (T ["Only sections with the key 'field' were expected."%string]) (T ["   Line | Content"%string; " >    1 | field: value"%string]) (0,0) (0,12).
Proof. vm_compute. reflexivity. Qed.

(* generated/errors/validation/test_expected_sections_got_field.py test_expecting_sections_but_getting_a_field_with_continuations_raises_the_expected_validationerror *)
Example t201 : (run (T ["field:"%string; "| continuation"%string; "| continuation"%string]) string_loader
  (fun call =>
   let! _ := (let! x := ret (VO 0) in call x "sections"%string [AT (T ["field"%string])]) in
   ret VN))
  = TErr (T ["Only sections with the key 'field' were expected."%string]) (T ["   Line | Content"%string; " >    1 | field:"%string; " *    2 | | continuation"%string; " *    3 | | continuation"%string]) (0,0) (2,14).
Proof. vm_compute. reflexivity. Qed.

(* generated/errors/validation/test_expected_sections_got_field.py test_expecting_sections_but_getting_a_field_with_continuations_separated_by_idle_lines_raises_the_expected_validationerr *)
Example t202 : (run (T ["field: value"%string; "| continuation"%string; "| continuation"%string; ""%string; "> comment"%string; "| continuation"%string]) string_loader
  (fun call =>
   let! _ := (let! x := ret (VO 0) in call x "sections"%string [AT (T ["field"%string])]) in
   ret VN))
  = TErr (T ["Only sections with the key 'field' were expected."%string]) (T ["   Line | Content"%string; " >    1 | field: value"%string; " *    2 | | continuation"%string; " *    3 | | continuation"%string; " *    4 | "%string; " *    5 | > comment"%string; " *    6 | | continuation"%string]) (0,0) (5,14).
Proof. vm_compute. reflexivity. Qed.

(* generated/errors/validation/test_expected_sections_got_fieldset.py test_expecting_sections_but_getting_a_fieldset_with_one_item_raises_the_expected_validationerror *)
Example t203 : (run (T ["fieldset:"%string; "entry = value"%string]) string_loader
  (fun call =>
   let! _ := (let! x := ret (VO 0) in call x "sections"%string [AT (T ["fieldset"%string])]) in
   ret VN))
  = TErr (T ["Only sections with the key 'fieldset' were expected."%string]) (T ["   Line | Content"%string; " >    1 | fieldset:"%string; " *    2 | entry = value"%string]) (0,0) (1,13).
Proof. vm_compute. reflexivity. Qed.

(* generated/errors/validation/test_expected_sections_got_fieldset.py test_expecting_sections_but_getting_a_fieldset_with_empty_lines_and_multiple_entries_raises_the_expected_validationerror *)
Example t204 : (run (T ["fieldset:"%string; ""%string; "entry = value"%string; ""%string; "entry = value"%string; ""%string; "entry = value"%string; ""%string]) string_loader
  (fun call =>
   let! _ := (let! x := ret (VO 0) in call x "sections"%string [AT (T ["fieldset"%string])]) in
   ret VN))
  = TErr (T ["Only sections with the key 'fieldset' were expected."%string]) (T ["   Line | Content"%string; " >    1 | fieldset:"%string; " *    2 | "%string; " *    3 | entry = value"%string; " *    4 | "%string; " *    5 | entry = value"%string; " *    6 | "%string; " *    7 | entry = value"%string; "      8 | "%string]) (0,0) (6,13).
Proof. vm_compute. reflexivity. Qed.

(* generated/errors/validation/test_expected_sections_got_fieldset.py test_expecting_sections_but_getting_a_fieldset_with_two_entries_with_comments_raises_the_expected_validationerror *)
Example t205 : (run (T ["fieldset:"%string; "> comment"%string; "entry = value"%string; ""%string; "> comment"%string; "entry = value"%string]) string_loader
  (fun call =>
   let! _ := (let! x := ret (VO 0) in call x "sections"%string [AT (T ["fieldset"%string])]) in
   ret VN))
  = TErr (T ["Only sections with the key 'fieldset' were expected."%string]) (T ["   Line | Content"%string; " >    1 | fieldset:"%string; " *    2 | > comment"%string; " *    3 | entry = value"%string; " *    4 | "%string; " *    5 | > comment"%string; " *    6 | entry = value"%string]) (0,0) (5,13).
Proof. vm_compute. reflexivity. Qed.

(* generated/errors/validation/test_expected_sections_got_list.py test_expecting_sections_but_getting_a_list_with_one_item_raises_the_expected_validationerror *)
Example t206 : (run (T ["list:"%string; "- item"%string]) string_loader
  (fun call =>
   let! _ := (let! x := ret (VO 0) in call x "sections"%string [AT (T ["list"%string])]) in
   ret VN))
  = TErr (T ["Only sections with the key 'list' were expected."%string]) (T ["   Line | Content"%string; " >    1 | list:"%string; " *    2 | - item"%string]) (0,0) (1,6).
Proof. vm_compute. reflexivity. Qed.

(* generated/errors/validation/test_expected_sections_got_list.py test_expecting_sections_but_getting_a_list_with_empty_lines_and_multiple_items_raises_the_expected_validationerror *)
Example t207 : (run (T ["list:"%string; ""%string; "- item"%string; ""%string; "- item"%string; ""%string; "- item"%string; ""%string]) string_loader
  (fun call =>
   let! _ := (let! x := ret (VO 0) in call x "sections"%string [AT (T ["list"%string])]) in
   ret VN))
  = TErr (T ["Only sections with the key 'list' were expected."%string]) (T ["   Line | Content"%string; " >    1 | list:"%string; " *    2 | "%string; " *    3 | - item"%string; " *    4 | "%string; " *    5 | - item"%string; " *    6 | "%string; " *    7 | - item"%string; "      8 | "%string]) (0,0) (6,6).
Proof. vm_compute. reflexivity. Qed.

(* generated/errors/validation/test_expected_sections_got_list.py test_expecting_sections_but_getting_a_list_with_two_items_with_comments_raises_the_expected_validationerror *)
Example t208 : (run (T ["list:"%string; "> comment"%string; "- item"%string; ""%string; "> comment"%string; "- item"%string]) string_loader
  (fun call =>
   let! _ := (let! x := ret (VO 0) in call x "sections"%string [AT (T ["list"%string])]) in
   ret VN))
  = TErr (T ["Only sections with the key 'list' were expected."%string]) (T ["   Line | Content"%string; " >    1 | list:"%string; " *    2 | > comment"%string; " *    3 | - item"%string; " *    4 | "%string; " *    5 | > comment"%string; " *    6 | - item"%string]) (0,0) (5,6).
Proof. vm_compute. reflexivity. Qed.

(* generated/errors/validation/test_missing_comment.py test_querying_a_section_for_a_required_but_missing_comment_raises_the_expected_validationerror *)
Example t209 : (run (T ["# section"%string]) string_loader
  (fun call =>
   let! _ := (let! x := (let! x := ret (VO 0) in call x "section"%string [AT (T ["section"%string])]) in call x "required_string_comment"%string []) in
   ret VN))
  = TErr (T ["A required comment for this element is missing."%string]) (T ["   Line | Content"%string; " >    1 | # section"%string]) (0,0) (0,0).
Proof. vm_compute. reflexivity. Qed.

(* generated/errors/validation/test_missing_element.py test_querying_a_section_for_a_required_but_missing_element_raises_the_expected_validationerror *)
Example t210 : (run (T ["# section"%string]) string_loader
  (fun call =>
   let! _ := (let! x := (let! x := ret (VO 0) in call x "section"%string [AT (T ["section"%string])]) in call x "required_element"%string [AT (T ["element"%string])]) in
   ret VN))
  = TErr (T ["The element 'element' is missing - in case it has been specified look for typos and also check for correct capitalization."%string]) (T ["   Line | Content"%string; " *    1 | # section"%string]) (0,9) (0,9).
Proof. vm_compute. reflexivity. Qed.

(* generated/errors/validation/test_missing_field.py test_querying_a_section_for_a_required_but_missing_field_raises_the_expected_validationerror *)
Example t211 : (run (T ["# section"%string]) string_loader
  (fun call =>
   let! _ := (let! x := (let! x := ret (VO 0) in call x "section"%string [AT (T ["section"%string])]) in call x "required_field"%string [AT (T ["field"%string])]) in
   ret VN))
  = TErr (T ["The field 'field' is missing - in case it has been specified look for typos and also check for correct capitalization."%string]) (T ["   Line | Content"%string; " *    1 | # section"%string]) (0,9) (0,9).
Proof. vm_compute. reflexivity. Qed.

(* generated/errors/validation/test_missing_field_value.py test_querying_a_field_for_a_required_but_missing_value_raises_the_expected_validationerror *)
Example t212 : (run (T ["field:"%string]) string_loader
  (fun call =>
   let! _ := (let! x := (let! x := ret (VO 0) in call x "field"%string [AT (T ["field"%string])]) in call x "required_string_value"%string []) in
   ret VN))
  = TErr (T ["The field 'field' must contain a value."%string]) (T ["   Line | Content"%string; " >    1 | field:"%string]) (0,6) (0,6).
Proof. vm_compute. reflexivity. Qed.

(* generated/errors/validation/test_missing_fieldset.py test_querying_a_section_for_a_required_but_missing_fieldset_raises_the_expected_validationerror *)
Example t213 : (run (T ["# section"%string]) string_loader
  (fun call =>
   let! _ := (let! x := (let! x := ret (VO 0) in call x "section"%string [AT (T ["section"%string])]) in call x "required_fieldset"%string [AT (T ["fieldset"%string])]) in
   ret VN))
  = TErr (T ["The fieldset 'fieldset' is missing - in case it has been specified look for typos and also check for correct capitalization."%string]) (T ["   Line | Content"%string; " *    1 | # section"%string]) (0,9) (0,9).
Proof. vm_compute. reflexivity. Qed.

(* generated/errors/validation/test_missing_fieldset_entry.py test_querying_an_empty_fieldset_for_a_required_but_missing_entry_raises_the_expected_validationerror *)
Example t214 : (run (T ["fieldset:"%string]) string_loader
  (fun call =>
   let! _ := (let! x := (let! x := ret (VO 0) in call x "fieldset"%string [AT (T ["fieldset"%string])]) in call x "required_entry"%string [AT (T ["entry"%string])]) in
   ret VN))
  = TErr (T ["The fieldset entry 'entry' is missing - in case it has been specified look for typos and also check for correct capitalization."%string]) (T ["   Line | Content"%string; " *    1 | fieldset:"%string]) (0,9) (0,9).
Proof. vm_compute. reflexivity. Qed.

(* generated/errors/validation/test_missing_fieldset_entry.py test_querying_a_fieldset_with_two_entries_for_a_required_but_missing_entry_raises_the_expected_validationerror *)
Example t215 : (run (T ["fieldset:"%string; "entry = value"%string; "entry = value"%string]) string_loader
  (fun call =>
   let! _ := (let! x := (let! x := ret (VO 0) in call x "fieldset"%string [AT (T ["fieldset"%string])]) in call x "required_entry"%string [AT (T ["missing"%string])]) in
   ret VN))
  = TErr (T ["The fieldset entry 'missing' is missing - in case it has been specified look for typos and also check for correct capitalization."%string]) (T ["   Line | Content"%string; " *    1 | fieldset:"%string; " ?    2 | entry = value"%string; " ?    3 | entry = value"%string]) (0,9) (0,9).
Proof. vm_compute. reflexivity. Qed.

(* generated/errors/validation/test_missing_fieldset_entry.py test_querying_a_fieldset_with_entries_empty_lines_and_comments_for_a_required_but_missing_entry_raises_the_expected_vali *)
Example t216 : (run (T ["fieldset:"%string; ""%string; "> comment"%string; "entry = value"%string; ""%string; "> comment"%string; "entry = value"%string]) string_loader
  (fun call =>
   let! _ := (let! x := (let! x := ret (VO 0) in call x "fieldset"%string [AT (T ["fieldset"%string])]) in call x "required_entry"%string [AT (T ["missing"%string])]) in
   ret VN))
  = TErr (T ["The fieldset entry 'missing' is missing - in case it has been specified look for typos and also check for correct capitalization."%string]) (T ["   Line | Content"%string; " *    1 | fieldset:"%string; " ?    2 | "%string; " ?    3 | > comment"%string; " ?    4 | entry = value"%string; " ?    5 | "%string; " ?    6 | > comment"%string; " ?    7 | entry = value"%string]) (0,9) (0,9).
Proof. vm_compute. reflexivity. Qed.

(* generated/errors/validation/test_missing_fieldset_entry_value.py test_querying_a_fieldset_entry_for_a_required_but_missing_value_raises_the_expected_validationerror *)
Example t217 : (run (T ["fieldset:"%string; "entry ="%string]) string_loader
  (fun call =>
   let! _ := (let! x := (let! x := (let! x := ret (VO 0) in call x "fieldset"%string [AT (T ["fieldset"%string])]) in call x "entry"%string [AT (T ["entry"%string])]) in call x "required_string_value"%string []) in
   ret VN))
  = TErr (T ["The fieldset entry 'entry' must contain a value."%string]) (T ["   Line | Content"%string; "      1 | fieldset:"%string; " >    2 | entry ="%string]) (1,7) (1,7).
Proof. vm_compute. reflexivity. Qed.

(* generated/errors/validation/test_missing_list.py test_querying_the_document_for_a_required_but_missing_list_raises_the_expected_validationerror *)
Example t218 : (run (T [""%string]) string_loader
  (fun call =>
   let! _ := (let! x := ret (VO 0) in call x "required_list"%string [AT (T ["list"%string])]) in
   ret VN))
  = TErr (T ["The list 'list' is missing - in case it has been specified look for typos and also check for correct capitalization."%string]) (T ["   Line | Content"%string; " ?    1 | "%string]) (0,0) (0,0).
Proof. vm_compute. reflexivity. Qed.

(* generated/errors/validation/test_missing_list.py test_querying_a_section_for_a_required_but_missing_list_raises_the_expected_validationerror *)
Example t219 : (run (T ["# section"%string]) string_loader
  (fun call =>
   let! _ := (let! x := (let! x := ret (VO 0) in call x "section"%string [AT (T ["section"%string])]) in call x "required_list"%string [AT (T ["list"%string])]) in
   ret VN))
  = TErr (T ["The list 'list' is missing - in case it has been specified look for typos and also check for correct capitalization."%string]) (T ["   Line | Content"%string; " *    1 | # section"%string]) (0,9) (0,9).
Proof. vm_compute. reflexivity. Qed.

(* generated/errors/validation/test_missing_list_item_value.py test_directly_querying_a_list_item_for_a_required_but_missing_value_raises_the_expected_validationerror *)
Example t220 : (run (T ["list:"%string; "-"%string]) string_loader
  (fun call =>
   let! _ := (let! x := (let! x := (let! x := (let! x := ret (VO 0) in call x "list"%string [AT (T ["list"%string])]) in call x "items"%string []) in nth_dv x 0) in call x "required_string_value"%string []) in
   ret VN))
  = TErr (T ["The list 'list' may not contain empty items."%string]) (T ["   Line | Content"%string; "      1 | list:"%string; " >    2 | -"%string]) (1,1) (1,1).
Proof. vm_compute. reflexivity. Qed.

(* generated/errors/validation/test_missing_list_item_value.py test_indirectly_querying_a_list_with_empty_items_for_required_values_raises_the_expected_validationerror *)
Example t221 : (run (T ["list:"%string; "-"%string]) string_loader
  (fun call =>
   let! _ := (let! x := (let! x := ret (VO 0) in call x "list"%string [AT (T ["list"%string])]) in call x "required_string_values"%string []) in
   ret VN))
  = TErr (T ["The list 'list' may not contain empty items."%string]) (T ["   Line | Content"%string; "      1 | list:"%string; " >    2 | -"%string]) (1,1) (1,1).
Proof. vm_compute. reflexivity. Qed.

(* generated/errors/validation/test_missing_section.py test_querying_an_empty_document_for_a_required_but_missing_section_raises_the_expected_validationerror *)
Example t222 : (run (T [""%string]) string_loader
  (fun call =>
   let! _ := (let! x := ret (VO 0) in call x "required_section"%string [AT (T ["section"%string])]) in
   ret VN))
  = TErr (T ["The section 'section' is missing - in case it has been specified look for typos and also check for correct capitalization."%string]) (T ["   Line | Content"%string; " ?    1 | "%string]) (0,0) (0,0).
Proof. vm_compute. reflexivity. Qed.

(* generated/errors/validation/test_missing_section.py test_querying_a_section_for_a_required_but_missing_section_raises_the_expected_validationerror *)
Example t223 : (run (T ["# section"%string]) string_loader
  (fun call =>
   let! _ := (let! x := (let! x := ret (VO 0) in call x "section"%string [AT (T ["section"%string])]) in call x "required_section"%string [AT (T ["section"%string])]) in
   ret VN))
  = TErr (T ["The section 'section' is missing - in case it has been specified look for typos and also check for correct capitalization."%string]) (T ["   Line | Content"%string; " *    1 | # section"%string]) (0,9) (0,9).
Proof. vm_compute. reflexivity. Qed.

(* generated/errors/validation/test_missing_value.py test_querying_a_fieldset_entry_for_a_required_but_missing_value_raises_the_expected_validationerror *)
Example t224 : (run (T ["fieldset:"%string; "entry ="%string]) string_loader
  (fun call =>
   let! _ := (let! x := (let! x := (let! x := ret (VO 0) in call x "fieldset"%string [AT (T ["fieldset"%string])]) in call x "entry"%string [AT (T ["entry"%string])]) in call x "required_string_value"%string []) in
   ret VN))
  = TErr (T ["The fieldset entry 'entry' must contain a value."%string]) (T ["   Line | Content"%string; "      1 | fieldset:"%string; " >    2 | entry ="%string]) (1,7) (1,7).
Proof. vm_compute. reflexivity. Qed.

(* generated/errors/validation/test_missing_value.py test_querying_a_field_for_a_required_but_missing_value_raises_the_expected_validationerror *)
Example t225 : (run (T ["field:"%string]) string_loader
  (fun call =>
   let! _ := (let! x := (let! x := ret (VO 0) in call x "field"%string [AT (T ["field"%string])]) in call x "required_string_value"%string []) in
   ret VN))
  = TErr (T ["The field 'field' must contain a value."%string]) (T ["   Line | Content"%string; " >    1 | field:"%string]) (0,6) (0,6).
Proof. vm_compute. reflexivity. Qed.

(* generated/errors/validation/test_missing_value.py test_querying_a_field_with_empty_line_continuations_for_a_required_but_missing_value_raises_the_expected_validationerror *)
Example t226 : (run (T ["field:"%string; "|"%string; ""%string; "|"%string]) string_loader
  (fun call =>
   let! _ := (let! x := (let! x := ret (VO 0) in call x "field"%string [AT (T ["field"%string])]) in call x "required_string_value"%string []) in
   ret VN))
  = TErr (T ["The field 'field' must contain a value."%string]) (T ["   Line | Content"%string; " >    1 | field:"%string; " *    2 | |"%string; " *    3 | "%string; " *    4 | |"%string]) (0,6) (3,1).
Proof. vm_compute. reflexivity. Qed.

(* generated/errors/validation/test_missing_value.py test_querying_a_list_with_an_empty_item_for_required_values_raises_the_expected_validationerror *)
Example t227 : (run (T ["list:"%string; "- item"%string; "-"%string]) string_loader
  (fun call =>
   let! _ := (let! x := (let! x := ret (VO 0) in call x "list"%string [AT (T ["list"%string])]) in call x "required_string_values"%string []) in
   ret VN))
  = TErr (T ["The list 'list' may not contain empty items."%string]) (T ["   Line | Content"%string; "      1 | list:"%string; "      2 | - item"%string; " >    3 | -"%string]) (2,1) (2,1).
Proof. vm_compute. reflexivity. Qed.

(* generated/errors/validation/test_unexpected_element.py test_asserting_everything_was_touched_on_an_untouched_document_raises_the_expected_validationerror *)
Example t228 : (run (T ["field: value"%string]) string_loader
  (fun call =>
   let! _ := (let! x := ret (VO 0) in call x "assert_all_touched"%string []) in
   ret VN))
  = TErr (T ["This element was not expected, make sure it is at the right place in the document and that its key is not mis-typed."%string]) (T ["   Line | Content"%string; " >    1 | field: value"%string]) (0,0) (0,12).
Proof. vm_compute. reflexivity. Qed.

(* generated/errors/validation/test_unexpected_element.py test_asserting_everything_was_touched_on_an_untouched_document_with_a_custom_message_raises_the_expected_validationerror *)
Example t229 : (run (T ["field: value"%string]) string_loader
  (fun call =>
   let! _ := (let! x := ret (VO 0) in call x "assert_all_touched"%string [AT (T ["my custom message"%string])]) in
   ret VN))
  = TErr (T ["my custom message"%string]) (T ["   Line | Content"%string; " >    1 | field: value"%string]) (0,0) (0,12).
Proof. vm_compute. reflexivity. Qed.

(* generated/errors/validation/test_value_error.py test_requesting_a_value_error_from_a_field_with_a_static_message_raises_the_expected_validationerror *)
Example t230 : (run (T ["field: value"%string]) string_loader
  (fun call =>
   let! _ := (let! x := (let! x := (let! x := ret (VO 0) in call x "field"%string [AT (T ["field"%string])]) in call x "value_error"%string [AT (T ["my static message"%string])]) in raise_dv x) in
   ret VN))
  = TErr (T ["There is a problem with the value of this element: my static message"%string]) (T ["   Line | Content"%string; " >    1 | field: value"%string]) (0,7) (0,12).
Proof. vm_compute. reflexivity. Qed.

(* generated/errors/validation/test_value_error.py test_requesting_a_value_error_from_a_multiline_field_with_a_static_message_raises_the_expected_validationerror *)
Example t231 : (run (T ["-- multiline_field"%string; "value"%string; "-- multiline_field"%string]) string_loader
  (fun call =>
   let! _ := (let! x := (let! x := (let! x := ret (VO 0) in call x "field"%string [AT (T ["multiline_field"%string])]) in call x "value_error"%string [AT (T ["my static message"%string])]) in raise_dv x) in
   ret VN))
  = TErr (T ["There is a problem with the value of this element: my static message"%string]) (T ["   Line | Content"%string; "      1 | -- multiline_field"%string; " >    2 | value"%string; "      3 | -- multiline_field"%string]) (1,0) (1,5).
Proof. vm_compute. reflexivity. Qed.

(* generated/errors/validation/test_value_error.py test_requesting_a_value_error_from_an_empty_multiline_field_with_a_static_message_raises_the_expected_validationerror *)
Example t232 : (run (T ["-- multiline_field"%string; "-- multiline_field"%string]) string_loader
  (fun call =>
   let! _ := (let! x := (let! x := (let! x := ret (VO 0) in call x "field"%string [AT (T ["multiline_field"%string])]) in call x "value_error"%string [AT (T ["my static message"%string])]) in raise_dv x) in
   ret VN))
  = TErr (T ["There is a problem with the value of this element: my static message"%string]) (T ["   Line | Content"%string; " >    1 | -- multiline_field"%string; " *    2 | -- multiline_field"%string]) (0,18) (0,18).
Proof. vm_compute. reflexivity. Qed.

(* generated/errors/validation/test_value_error.py test_requesting_a_value_error_from_a_field_with_continuations_with_a_static_message_raises_the_expected_validationerror *)
Example t233 : (run (T ["field: value"%string; "\ continuation"%string; "\ continuation"%string; "|"%string; ""%string; "|"%string]) string_loader
  (fun call =>
   let! _ := (let! x := (let! x := (let! x := ret (VO 0) in call x "field"%string [AT (T ["field"%string])]) in call x "value_error"%string [AT (T ["my static message"%string])]) in raise_dv x) in
   ret VN))
  = TErr (T ["There is a problem with the value of this element: my static message"%string]) (T ["   Line | Content"%string; " >    1 | field: value"%string; " *    2 | \ continuation"%string; " *    3 | \ continuation"%string; " *    4 | |"%string; " *    5 | "%string; " *    6 | |"%string]) (0,7) (5,1).
Proof. vm_compute. reflexivity. Qed.

(* generated/intricacies/test_touch_hierarchies.py test_touching_elements_in_a_section_that_were_copied_from_another_section_does_not_touch_the_original_elements_raises_th *)
Example t234 : (run (T ["# section"%string; "field: value"%string; ""%string; "# copy < section"%string]) string_loader
  (fun call =>
   let! v_document := ret (VO 0) in
   let! _ := (let! x := (let! x := ret v_document in call x "section"%string [AT (T ["section"%string])]) in call x "string_key"%string []) in
   let! _ := (let! x := (let! x := (let! x := ret v_document in call x "section"%string [AT (T ["copy"%string])]) in call x "field"%string [AT (T ["field"%string])]) in call x "string_key"%string []) in
   let! _ := (let! x := ret v_document in call x "assert_all_touched"%string []) in
   ret VN))
  = TErr (T ["This element was not expected, make sure it is at the right place in the document and that its key is not mis-typed."%string]) (T ["   Line | Content"%string; "      1 | # section"%string; " >    2 | field: value"%string; "      3 | "%string; "      4 | # copy < section"%string]) (1,0) (1,12).
Proof. vm_compute. reflexivity. Qed.

(* generated/whitespace/test_comments.py test_querying_a_comment_with_complex_indentation_from_a_section_produces_the_expected_result *)
Example t235 : (run (T ["               >"%string; "    > indented 0 spaces"%string; ">"%string; "  >       indented 4 spaces "%string; ">       indented 2 spaces"%string; "                              > indented 26 spaces"%string; "                                 >"%string; "# section"%string]) string_loader
  (fun call =>
   let! v_output := (let! x := (let! x := ret (VO 0) in call x "section"%string [AT (T ["section"%string])]) in call x "required_string_comment"%string []) in
   ret v_output))
  = TVal (VT (T ["indented 0 spaces"%string; ""%string; "    indented 4 spaces"%string; "  indented 2 spaces"%string; "                          indented 26 spaces"%string])).
Proof. vm_compute. reflexivity. Qed.

(* reporters/test_html.py: the stored snapshot *)
Example snapshot_html :
  match parse_context [62; 32; 99; 111; 109; 109; 101; 110; 116; 10; 35; 32; 115; 101; 99; 116; 105; 111; 110; 10; 10; 102; 105; 101; 108; 100; 58; 32; 118; 97; 108; 117; 101; 10; 10; 108; 105; 115; 116; 58; 10; 45; 32; 105; 116; 101; 109; 10; 45; 32; 105; 116; 101; 109; 10; 10; 62; 32; 99; 111; 109; 109; 101; 110; 116; 10; 45; 32; 105; 116; 101; 109; 10; 10; 35; 35; 32; 115; 117; 98; 115; 101; 99; 116; 105; 111; 110; 10; 10; 102; 105; 101; 108; 100; 115; 101; 116; 58; 10; 101; 110; 116; 114; 121; 32; 61; 32; 118; 97; 108; 117; 101; 10; 10; 62; 32; 99; 111; 109; 109; 101; 110; 116; 10; 101; 110; 116; 114; 121; 32; 61; 32; 118; 97; 108; 117; 101]%N en HtmlReporter None with
  | Ok c => report c (fun r => report_element r (hd 0 (n_elements (hget (c_heap c) 0))))
  | Raise e => Raise e
  end = Ok [60; 112; 114; 101; 32; 99; 108; 97; 115; 115; 61; 34; 101; 110; 111; 45; 114; 101; 112; 111; 114; 116; 34; 62; 60; 100; 105; 118; 32; 99; 108; 97; 115; 115; 61; 34; 101; 110; 111; 45; 114; 101; 112; 111; 114; 116; 45; 108; 105; 110; 101; 32; 34; 62; 60; 100; 105; 118; 32; 99; 108; 97; 115; 115; 61; 34; 101; 110; 111; 45; 114; 101; 112; 111; 114; 116; 45; 103; 117; 116; 116; 101; 114; 34; 62; 32; 32; 32; 32; 32; 32; 76; 105; 110; 101; 60; 47; 100; 105; 118; 62; 60; 100; 105; 118; 32; 99; 108; 97; 115; 115; 61; 34; 101; 110; 111; 45; 114; 101; 112; 111; 114; 116; 45; 99; 111; 110; 116; 101; 110; 116; 34; 62; 67; 111; 110; 116; 101; 110; 116; 60; 47; 100; 105; 118; 62; 60; 47; 100; 105; 118; 62; 60; 100; 105; 118; 32; 99; 108; 97; 115; 115; 61; 34; 101; 110; 111; 45; 114; 101; 112; 111; 114; 116; 45; 108; 105; 110; 101; 32; 34; 62; 60; 100; 105; 118; 32; 99; 108; 97; 115; 115; 61; 34; 101; 110; 111; 45; 114; 101; 112; 111; 114; 116; 45; 103; 117; 116; 116; 101; 114; 34; 62; 32; 32; 32; 32; 32; 32; 32; 32; 32; 49; 60; 47; 100; 105; 118; 62; 60; 100; 105; 118; 32; 99; 108; 97; 115; 115; 61; 34; 101; 110; 111; 45; 114; 101; 112; 111; 114; 116; 45; 99; 111; 110; 116; 101; 110; 116; 34; 62; 38; 103; 116; 59; 32; 99; 111; 109; 109; 101; 110; 116; 60; 47; 100; 105; 118; 62; 60; 47; 100; 105; 118; 62; 10; 60; 100; 105; 118; 32; 99; 108; 97; 115; 115; 61; 34; 101; 110; 111; 45; 114; 101; 112; 111; 114; 116; 45; 108; 105; 110; 101; 32; 101; 110; 111; 45; 114; 101; 112; 111; 114; 116; 45; 108; 105; 110; 101; 45; 101; 109; 112; 104; 97; 115; 105; 122; 101; 100; 34; 62; 60; 100; 105; 118; 32; 99; 108; 97; 115; 115; 61; 34; 101; 110; 111; 45; 114; 101; 112; 111; 114; 116; 45; 103; 117; 116; 116; 101; 114; 34; 62; 32; 32; 32; 32; 32; 32; 32; 32; 32; 50; 60; 47; 100; 105; 118; 62; 60; 100; 105; 118; 32; 99; 108; 97; 115; 115; 61; 34; 101; 110; 111; 45; 114; 101; 112; 111; 114; 116; 45; 99; 111; 110; 116; 101; 110; 116; 34; 62; 35; 32; 115; 101; 99; 116; 105; 111; 110; 60; 47; 100; 105; 118; 62; 60; 47; 100; 105; 118; 62; 10; 60; 100; 105; 118; 32; 99; 108; 97; 115; 115; 61; 34; 101; 110; 111; 45; 114; 101; 112; 111; 114; 116; 45; 108; 105; 110; 101; 32; 101; 110; 111; 45; 114; 101; 112; 111; 114; 116; 45; 108; 105; 110; 101; 45; 105; 110; 100; 105; 99; 97; 116; 101; 100; 34; 62; 60; 100; 105; 118; 32; 99; 108; 97; 115; 115; 61; 34; 101; 110; 111; 45; 114; 101; 112; 111; 114; 116; 45; 103; 117; 116; 116; 101; 114; 34; 62; 32; 32; 32; 32; 32; 32; 32; 32; 32; 51; 60; 47; 100; 105; 118; 62; 60; 100; 105; 118; 32; 99; 108; 97; 115; 115; 61; 34; 101; 110; 111; 45; 114; 101; 112; 111; 114; 116; 45; 99; 111; 110; 116; 101; 110; 116; 34; 62; 60; 47; 100; 105; 118; 62; 60; 47; 100; 105; 118; 62; 10; 60; 100; 105; 118; 32; 99; 108; 97; 115; 115; 61; 34; 101; 110; 111; 45; 114; 101; 112; 111; 114; 116; 45; 108; 105; 110; 101; 32; 101; 110; 111; 45; 114; 101; 112; 111; 114; 116; 45; 108; 105; 110; 101; 45; 105; 110; 100; 105; 99; 97; 116; 101; 100; 34; 62; 60; 100; 105; 118; 32; 99; 108; 97; 115; 115; 61; 34; 101; 110; 111; 45; 114; 101; 112; 111; 114; 116; 45; 103; 117; 116; 116; 101; 114; 34; 62; 32; 32; 32; 32; 32; 32; 32; 32; 32; 52; 60; 47; 100; 105; 118; 62; 60; 100; 105; 118; 32; 99; 108; 97; 115; 115; 61; 34; 101; 110; 111; 45; 114; 101; 112; 111; 114; 116; 45; 99; 111; 110; 116; 101; 110; 116; 34; 62; 102; 105; 101; 108; 100; 58; 32; 118; 97; 108; 117; 101; 60; 47; 100; 105; 118; 62; 60; 47; 100; 105; 118; 62; 10; 60; 100; 105; 118; 32; 99; 108; 97; 115; 115; 61; 34; 101; 110; 111; 45; 114; 101; 112; 111; 114; 116; 45; 108; 105; 110; 101; 32; 101; 110; 111; 45; 114; 101; 112; 111; 114; 116; 45; 108; 105; 110; 101; 45; 105; 110; 100; 105; 99; 97; 116; 101; 100; 34; 62; 60; 100; 105; 118; 32; 99; 108; 97; 115; 115; 61; 34; 101; 110; 111; 45; 114; 101; 112; 111; 114; 116; 45; 103; 117; 116; 116; 101; 114; 34; 62; 32; 32; 32; 32; 32; 32; 32; 32; 32; 53; 60; 47; 100; 105; 118; 62; 60; 100; 105; 118; 32; 99; 108; 97; 115; 115; 61; 34; 101; 110; 111; 45; 114; 101; 112; 111; 114; 116; 45; 99; 111; 110; 116; 101; 110; 116; 34; 62; 60; 47; 100; 105; 118; 62; 60; 47; 100; 105; 118; 62; 10; 60; 100; 105; 118; 32; 99; 108; 97; 115; 115; 61; 34; 101; 110; 111; 45; 114; 101; 112; 111; 114; 116; 45; 108; 105; 110; 101; 32; 101; 110; 111; 45; 114; 101; 112; 111; 114; 116; 45; 108; 105; 110; 101; 45; 105; 110; 100; 105; 99; 97; 116; 101; 100; 34; 62; 60; 100; 105; 118; 32; 99; 108; 97; 115; 115; 61; 34; 101; 110; 111; 45; 114; 101; 112; 111; 114; 116; 45; 103; 117; 116; 116; 101; 114; 34; 62; 32; 32; 32; 32; 32; 32; 32; 32; 32; 54; 60; 47; 100; 105; 118; 62; 60; 100; 105; 118; 32; 99; 108; 97; 115; 115; 61; 34; 101; 110; 111; 45; 114; 101; 112; 111; 114; 116; 45; 99; 111; 110; 116; 101; 110; 116; 34; 62; 108; 105; 115; 116; 58; 60; 47; 100; 105; 118; 62; 60; 47; 100; 105; 118; 62; 10; 60; 100; 105; 118; 32; 99; 108; 97; 115; 115; 61; 34; 101; 110; 111; 45; 114; 101; 112; 111; 114; 116; 45; 108; 105; 110; 101; 32; 101; 110; 111; 45; 114; 101; 112; 111; 114; 116; 45; 108; 105; 110; 101; 45; 105; 110; 100; 105; 99; 97; 116; 101; 100; 34; 62; 60; 100; 105; 118; 32; 99; 108; 97; 115; 115; 61; 34; 101; 110; 111; 45; 114; 101; 112; 111; 114; 116; 45; 103; 117; 116; 116; 101; 114; 34; 62; 32; 32; 32; 32; 32; 32; 32; 32; 32; 55; 60; 47; 100; 105; 118; 62; 60; 100; 105; 118; 32; 99; 108; 97; 115; 115; 61; 34; 101; 110; 111; 45; 114; 101; 112; 111; 114; 116; 45; 99; 111; 110; 116; 101; 110; 116; 34; 62; 45; 32; 105; 116; 101; 109; 60; 47; 100; 105; 118; 62; 60; 47; 100; 105; 118; 62; 10; 60; 100; 105; 118; 32; 99; 108; 97; 115; 115; 61; 34; 101; 110; 111; 45; 114; 101; 112; 111; 114; 116; 45; 108; 105; 110; 101; 32; 101; 110; 111; 45; 114; 101; 112; 111; 114; 116; 45; 108; 105; 110; 101; 45; 105; 110; 100; 105; 99; 97; 116; 101; 100; 34; 62; 60; 100; 105; 118; 32; 99; 108; 97; 115; 115; 61; 34; 101; 110; 111; 45; 114; 101; 112; 111; 114; 116; 45; 103; 117; 116; 116; 101; 114; 34; 62; 32; 32; 32; 32; 32; 32; 32; 32; 32; 56; 60; 47; 100; 105; 118; 62; 60; 100; 105; 118; 32; 99; 108; 97; 115; 115; 61; 34; 101; 110; 111; 45; 114; 101; 112; 111; 114; 116; 45; 99; 111; 110; 116; 101; 110; 116; 34; 62; 45; 32; 105; 116; 101; 109; 60; 47; 100; 105; 118; 62; 60; 47; 100; 105; 118; 62; 10; 60; 100; 105; 118; 32; 99; 108; 97; 115; 115; 61; 34; 101; 110; 111; 45; 114; 101; 112; 111; 114; 116; 45; 108; 105; 110; 101; 32; 101; 110; 111; 45; 114; 101; 112; 111; 114; 116; 45; 108; 105; 110; 101; 45; 105; 110; 100; 105; 99; 97; 116; 101; 100; 34; 62; 60; 100; 105; 118; 32; 99; 108; 97; 115; 115; 61; 34; 101; 110; 111; 45; 114; 101; 112; 111; 114; 116; 45; 103; 117; 116; 116; 101; 114; 34; 62; 32; 32; 32; 32; 32; 32; 32; 32; 32; 57; 60; 47; 100; 105; 118; 62; 60; 100; 105; 118; 32; 99; 108; 97; 115; 115; 61; 34; 101; 110; 111; 45; 114; 101; 112; 111; 114; 116; 45; 99; 111; 110; 116; 101; 110; 116; 34; 62; 60; 47; 100; 105; 118; 62; 60; 47; 100; 105; 118; 62; 10; 60; 100; 105; 118; 32; 99; 108; 97; 115; 115; 61; 34; 101; 110; 111; 45; 114; 101; 112; 111; 114; 116; 45; 108; 105; 110; 101; 32; 101; 110; 111; 45; 114; 101; 112; 111; 114; 116; 45; 108; 105; 110; 101; 45; 105; 110; 100; 105; 99; 97; 116; 101; 100; 34; 62; 60; 100; 105; 118; 32; 99; 108; 97; 115; 115; 61; 34; 101; 110; 111; 45; 114; 101; 112; 111; 114; 116; 45; 103; 117; 116; 116; 101; 114; 34; 62; 32; 32; 32; 32; 32; 32; 32; 32; 49; 48; 60; 47; 100; 105; 118; 62; 60; 100; 105; 118; 32; 99; 108; 97; 115; 115; 61; 34; 101; 110; 111; 45; 114; 101; 112; 111; 114; 116; 45; 99; 111; 110; 116; 101; 110; 116; 34; 62; 38; 103; 116; 59; 32; 99; 111; 109; 109; 101; 110; 116; 60; 47; 100; 105; 118; 62; 60; 47; 100; 105; 118; 62; 10; 60; 100; 105; 118; 32; 99; 108; 97; 115; 115; 61; 34; 101; 110; 111; 45; 114; 101; 112; 111; 114; 116; 45; 108; 105; 110; 101; 32; 101; 110; 111; 45; 114; 101; 112; 111; 114; 116; 45; 108; 105; 110; 101; 45; 105; 110; 100; 105; 99; 97; 116; 101; 100; 34; 62; 60; 100; 105; 118; 32; 99; 108; 97; 115; 115; 61; 34; 101; 110; 111; 45; 114; 101; 112; 111; 114; 116; 45; 103; 117; 116; 116; 101; 114; 34; 62; 32; 32; 32; 32; 32; 32; 32; 32; 49; 49; 60; 47; 100; 105; 118; 62; 60; 100; 105; 118; 32; 99; 108; 97; 115; 115; 61; 34; 101; 110; 111; 45; 114; 101; 112; 111; 114; 116; 45; 99; 111; 110; 116; 101; 110; 116; 34; 62; 45; 32; 105; 116; 101; 109; 60; 47; 100; 105; 118; 62; 60; 47; 100; 105; 118; 62; 10; 60; 100; 105; 118; 32; 99; 108; 97; 115; 115; 61; 34; 101; 110; 111; 45; 114; 101; 112; 111; 114; 116; 45; 108; 105; 110; 101; 32; 101; 110; 111; 45; 114; 101; 112; 111; 114; 116; 45; 108; 105; 110; 101; 45; 105; 110; 100; 105; 99; 97; 116; 101; 100; 34; 62; 60; 100; 105; 118; 32; 99; 108; 97; 115; 115; 61; 34; 101; 110; 111; 45; 114; 101; 112; 111; 114; 116; 45; 103; 117; 116; 116; 101; 114; 34; 62; 32; 32; 32; 32; 32; 32; 32; 32; 49; 50; 60; 47; 100; 105; 118; 62; 60; 100; 105; 118; 32; 99; 108; 97; 115; 115; 61; 34; 101; 110; 111; 45; 114; 101; 112; 111; 114; 116; 45; 99; 111; 110; 116; 101; 110; 116; 34; 62; 60; 47; 100; 105; 118; 62; 60; 47; 100; 105; 118; 62; 10; 60; 100; 105; 118; 32; 99; 108; 97; 115; 115; 61; 34; 101; 110; 111; 45; 114; 101; 112; 111; 114; 116; 45; 108; 105; 110; 101; 32; 101; 110; 111; 45; 114; 101; 112; 111; 114; 116; 45; 108; 105; 110; 101; 45; 105; 110; 100; 105; 99; 97; 116; 101; 100; 34; 62; 60; 100; 105; 118; 32; 99; 108; 97; 115; 115; 61; 34; 101; 110; 111; 45; 114; 101; 112; 111; 114; 116; 45; 103; 117; 116; 116; 101; 114; 34; 62; 32; 32; 32; 32; 32; 32; 32; 32; 49; 51; 60; 47; 100; 105; 118; 62; 60; 100; 105; 118; 32; 99; 108; 97; 115; 115; 61; 34; 101; 110; 111; 45; 114; 101; 112; 111; 114; 116; 45; 99; 111; 110; 116; 101; 110; 116; 34; 62; 35; 35; 32; 115; 117; 98; 115; 101; 99; 116; 105; 111; 110; 60; 47; 100; 105; 118; 62; 60; 47; 100; 105; 118; 62; 10; 60; 100; 105; 118; 32; 99; 108; 97; 115; 115; 61; 34; 101; 110; 111; 45; 114; 101; 112; 111; 114; 116; 45; 108; 105; 110; 101; 32; 101; 110; 111; 45; 114; 101; 112; 111; 114; 116; 45; 108; 105; 110; 101; 45; 105; 110; 100; 105; 99; 97; 116; 101; 100; 34; 62; 60; 100; 105; 118; 32; 99; 108; 97; 115; 115; 61; 34; 101; 110; 111; 45; 114; 101; 112; 111; 114; 116; 45; 103; 117; 116; 116; 101; 114; 34; 62; 32; 32; 32; 32; 32; 32; 32; 32; 49; 52; 60; 47; 100; 105; 118; 62; 60; 100; 105; 118; 32; 99; 108; 97; 115; 115; 61; 34; 101; 110; 111; 45; 114; 101; 112; 111; 114; 116; 45; 99; 111; 110; 116; 101; 110; 116; 34; 62; 60; 47; 100; 105; 118; 62; 60; 47; 100; 105; 118; 62; 10; 60; 100; 105; 118; 32; 99; 108; 97; 115; 115; 61; 34; 101; 110; 111; 45; 114; 101; 112; 111; 114; 116; 45; 108; 105; 110; 101; 32; 101; 110; 111; 45; 114; 101; 112; 111; 114; 116; 45; 108; 105; 110; 101; 45; 105; 110; 100; 105; 99; 97; 116; 101; 100; 34; 62; 60; 100; 105; 118; 32; 99; 108; 97; 115; 115; 61; 34; 101; 110; 111; 45; 114; 101; 112; 111; 114; 116; 45; 103; 117; 116; 116; 101; 114; 34; 62; 32; 32; 32; 32; 32; 32; 32; 32; 49; 53; 60; 47; 100; 105; 118; 62; 60; 100; 105; 118; 32; 99; 108; 97; 115; 115; 61; 34; 101; 110; 111; 45; 114; 101; 112; 111; 114; 116; 45; 99; 111; 110; 116; 101; 110; 116; 34; 62; 102; 105; 101; 108; 100; 115; 101; 116; 58; 60; 47; 100; 105; 118; 62; 60; 47; 100; 105; 118; 62; 10; 60; 100; 105; 118; 32; 99; 108; 97; 115; 115; 61; 34; 101; 110; 111; 45; 114; 101; 112; 111; 114; 116; 45; 108; 105; 110; 101; 32; 101; 110; 111; 45; 114; 101; 112; 111; 114; 116; 45; 108; 105; 110; 101; 45; 105; 110; 100; 105; 99; 97; 116; 101; 100; 34; 62; 60; 100; 105; 118; 32; 99; 108; 97; 115; 115; 61; 34; 101; 110; 111; 45; 114; 101; 112; 111; 114; 116; 45; 103; 117; 116; 116; 101; 114; 34; 62; 32; 32; 32; 32; 32; 32; 32; 32; 49; 54; 60; 47; 100; 105; 118; 62; 60; 100; 105; 118; 32; 99; 108; 97; 115; 115; 61; 34; 101; 110; 111; 45; 114; 101; 112; 111; 114; 116; 45; 99; 111; 110; 116; 101; 110; 116; 34; 62; 101; 110; 116; 114; 121; 32; 61; 32; 118; 97; 108; 117; 101; 60; 47; 100; 105; 118; 62; 60; 47; 100; 105; 118; 62; 10; 60; 100; 105; 118; 32; 99; 108; 97; 115; 115; 61; 34; 101; 110; 111; 45; 114; 101; 112; 111; 114; 116; 45; 108; 105; 110; 101; 32; 101; 110; 111; 45; 114; 101; 112; 111; 114; 116; 45; 108; 105; 110; 101; 45; 105; 110; 100; 105; 99; 97; 116; 101; 100; 34; 62; 60; 100; 105; 118; 32; 99; 108; 97; 115; 115; 61; 34; 101; 110; 111; 45; 114; 101; 112; 111; 114; 116; 45; 103; 117; 116; 116; 101; 114; 34; 62; 32; 32; 32; 32; 32; 32; 32; 32; 49; 55; 60; 47; 100; 105; 118; 62; 60; 100; 105; 118; 32; 99; 108; 97; 115; 115; 61; 34; 101; 110; 111; 45; 114; 101; 112; 111; 114; 116; 45; 99; 111; 110; 116; 101; 110; 116; 34; 62; 60; 47; 100; 105; 118; 62; 60; 47; 100; 105; 118; 62; 10; 60; 100; 105; 118; 32; 99; 108; 97; 115; 115; 61; 34; 101; 110; 111; 45; 114; 101; 112; 111; 114; 116; 45; 108; 105; 110; 101; 32; 101; 110; 111; 45; 114; 101; 112; 111; 114; 116; 45; 108; 105; 110; 101; 45; 105; 110; 100; 105; 99; 97; 116; 101; 100; 34; 62; 60; 100; 105; 118; 32; 99; 108; 97; 115; 115; 61; 34; 101; 110; 111; 45; 114; 101; 112; 111; 114; 116; 45; 103; 117; 116; 116; 101; 114; 34; 62; 32; 32; 32; 32; 32; 32; 32; 32; 49; 56; 60; 47; 100; 105; 118; 62; 60; 100; 105; 118; 32; 99; 108; 97; 115; 115; 61; 34; 101; 110; 111; 45; 114; 101; 112; 111; 114; 116; 45; 99; 111; 110; 116; 101; 110; 116; 34; 62; 38; 103; 116; 59; 32; 99; 111; 109; 109; 101; 110; 116; 60; 47; 100; 105; 118; 62; 60; 47; 100; 105; 118; 62; 10; 60; 100; 105; 118; 32; 99; 108; 97; 115; 115; 61; 34; 101; 110; 111; 45; 114; 101; 112; 111; 114; 116; 45; 108; 105; 110; 101; 32; 101; 110; 111; 45; 114; 101; 112; 111; 114; 116; 45; 108; 105; 110; 101; 45; 105; 110; 100; 105; 99; 97; 116; 101; 100; 34; 62; 60; 100; 105; 118; 32; 99; 108; 97; 115; 115; 61; 34; 101; 110; 111; 45; 114; 101; 112; 111; 114; 116; 45; 103; 117; 116; 116; 101; 114; 34; 62; 32; 32; 32; 32; 32; 32; 32; 32; 49; 57; 60; 47; 100; 105; 118; 62; 60; 100; 105; 118; 32; 99; 108; 97; 115; 115; 61; 34; 101; 110; 111; 45; 114; 101; 112; 111; 114; 116; 45; 99; 111; 110; 116; 101; 110; 116; 34; 62; 101; 110; 116; 114; 121; 32; 61; 32; 118; 97; 108; 117; 101; 60; 47; 100; 105; 118; 62; 60; 47; 100; 105; 118; 62; 60; 47; 112; 114; 101; 62]%N.
Proof. vm_compute. reflexivity. Qed.

(* reporters/test_terminal.py: the stored snapshot *)
Example snapshot_terminal :
  match parse_context [62; 32; 99; 111; 109; 109; 101; 110; 116; 10; 35; 32; 115; 101; 99; 116; 105; 111; 110; 10; 10; 102; 105; 101; 108; 100; 58; 32; 118; 97; 108; 117; 101; 10; 10; 108; 105; 115; 116; 58; 10; 45; 32; 105; 116; 101; 109; 10; 45; 32; 105; 116; 101; 109; 10; 10; 62; 32; 99; 111; 109; 109; 101; 110; 116; 10; 45; 32; 105; 116; 101; 109; 10; 10; 35; 35; 32; 115; 117; 98; 115; 101; 99; 116; 105; 111; 110; 10; 10; 102; 105; 101; 108; 100; 115; 101; 116; 58; 10; 101; 110; 116; 114; 121; 32; 61; 32; 118; 97; 108; 117; 101; 10; 10; 62; 32; 99; 111; 109; 109; 101; 110; 116; 10; 101; 110; 116; 114; 121; 32; 61; 32; 118; 97; 108; 117; 101]%N en TerminalReporter None with
  | Ok c => report c (fun r => report_element r (hd 0 (n_elements (hget (c_heap c) 0))))
  | Raise e => Raise e
  end = Ok [27; 91; 52; 48; 109; 32; 32; 32; 32; 32; 32; 49; 32; 27; 91; 48; 109; 32; 27; 91; 57; 48; 109; 62; 32; 99; 111; 109; 109; 101; 110; 116; 27; 91; 48; 109; 10; 27; 91; 51; 48; 109; 27; 91; 49; 48; 49; 109; 32; 62; 32; 32; 32; 32; 50; 32; 27; 91; 48; 109; 32; 27; 91; 51; 55; 109; 35; 27; 91; 48; 109; 32; 27; 91; 49; 109; 27; 91; 57; 55; 109; 115; 101; 99; 116; 105; 111; 110; 27; 91; 48; 109; 10; 27; 91; 51; 48; 109; 27; 91; 52; 55; 109; 32; 42; 32; 32; 32; 32; 51; 32; 27; 91; 48; 109; 32; 10; 27; 91; 51; 48; 109; 27; 91; 52; 55; 109; 32; 42; 32; 32; 32; 32; 52; 32; 27; 91; 48; 109; 32; 27; 91; 49; 109; 27; 91; 57; 55; 109; 102; 105; 101; 108; 100; 27; 91; 48; 109; 27; 91; 51; 55; 109; 58; 27; 91; 48; 109; 32; 27; 91; 50; 109; 27; 91; 51; 55; 109; 118; 97; 108; 117; 101; 27; 91; 48; 109; 10; 27; 91; 51; 48; 109; 27; 91; 52; 55; 109; 32; 42; 32; 32; 32; 32; 53; 32; 27; 91; 48; 109; 32; 10; 27; 91; 51; 48; 109; 27; 91; 52; 55; 109; 32; 42; 32; 32; 32; 32; 54; 32; 27; 91; 48; 109; 32; 27; 91; 49; 109; 27; 91; 57; 55; 109; 108; 105; 115; 116; 27; 91; 48; 109; 27; 91; 51; 55; 109; 58; 27; 91; 48; 109; 10; 27; 91; 51; 48; 109; 27; 91; 52; 55; 109; 32; 42; 32; 32; 32; 32; 55; 32; 27; 91; 48; 109; 32; 27; 91; 51; 55; 109; 45; 27; 91; 48; 109; 32; 27; 91; 50; 109; 27; 91; 51; 55; 109; 105; 116; 101; 109; 27; 91; 48; 109; 10; 27; 91; 51; 48; 109; 27; 91; 52; 55; 109; 32; 42; 32; 32; 32; 32; 56; 32; 27; 91; 48; 109; 32; 27; 91; 51; 55; 109; 45; 27; 91; 48; 109; 32; 27; 91; 50; 109; 27; 91; 51; 55; 109; 105; 116; 101; 109; 27; 91; 48; 109; 10; 27; 91; 51; 48; 109; 27; 91; 52; 55; 109; 32; 42; 32; 32; 32; 32; 57; 32; 27; 91; 48; 109; 32; 10; 27; 91; 51; 48; 109; 27; 91; 52; 55; 109; 32; 42; 32; 32; 32; 49; 48; 32; 27; 91; 48; 109; 32; 27; 91; 57; 48; 109; 62; 32; 99; 111; 109; 109; 101; 110; 116; 27; 91; 48; 109; 10; 27; 91; 51; 48; 109; 27; 91; 52; 55; 109; 32; 42; 32; 32; 32; 49; 49; 32; 27; 91; 48; 109; 32; 27; 91; 51; 55; 109; 45; 27; 91; 48; 109; 32; 27; 91; 50; 109; 27; 91; 51; 55; 109; 105; 116; 101; 109; 27; 91; 48; 109; 10; 27; 91; 51; 48; 109; 27; 91; 52; 55; 109; 32; 42; 32; 32; 32; 49; 50; 32; 27; 91; 48; 109; 32; 10; 27; 91; 51; 48; 109; 27; 91; 52; 55; 109; 32; 42; 32; 32; 32; 49; 51; 32; 27; 91; 48; 109; 32; 27; 91; 51; 55; 109; 35; 35; 27; 91; 48; 109; 32; 27; 91; 49; 109; 27; 91; 57; 55; 109; 115; 117; 98; 115; 101; 99; 116; 105; 111; 110; 27; 91; 48; 109; 10; 27; 91; 51; 48; 109; 27; 91; 52; 55; 109; 32; 42; 32; 32; 32; 49; 52; 32; 27; 91; 48; 109; 32; 10; 27; 91; 51; 48; 109; 27; 91; 52; 55; 109; 32; 42; 32; 32; 32; 49; 53; 32; 27; 91; 48; 109; 32; 27; 91; 49; 109; 27; 91; 57; 55; 109; 102; 105; 101; 108; 100; 115; 101; 116; 27; 91; 48; 109; 27; 91; 51; 55; 109; 58; 27; 91; 48; 109; 10; 27; 91; 51; 48; 109; 27; 91; 52; 55; 109; 32; 42; 32; 32; 32; 49; 54; 32; 27; 91; 48; 109; 32; 27; 91; 49; 109; 27; 91; 57; 55; 109; 101; 110; 116; 114; 121; 27; 91; 48; 109; 32; 27; 91; 51; 55; 109; 61; 27; 91; 48; 109; 32; 27; 91; 50; 109; 27; 91; 51; 55; 109; 118; 97; 108; 117; 101; 27; 91; 48; 109; 10; 27; 91; 51; 48; 109; 27; 91; 52; 55; 109; 32; 42; 32; 32; 32; 49; 55; 32; 27; 91; 48; 109; 32; 10; 27; 91; 51; 48; 109; 27; 91; 52; 55; 109; 32; 42; 32; 32; 32; 49; 56; 32; 27; 91; 48; 109; 32; 27; 91; 57; 48; 109; 62; 32; 99; 111; 109; 109; 101; 110; 116; 27; 91; 48; 109; 10; 27; 91; 51; 48; 109; 27; 91; 52; 55; 109; 32; 42; 32; 32; 32; 49; 57; 32; 27; 91; 48; 109; 32; 27; 91; 49; 109; 27; 91; 57; 55; 109; 101; 110; 116; 114; 121; 27; 91; 48; 109; 32; 27; 91; 51; 55; 109; 61; 27; 91; 48; 109; 32; 27; 91; 50; 109; 27; 91; 51; 55; 109; 118; 97; 108; 117; 101; 27; 91; 48; 109]%N.
Proof. vm_compute. reflexivity. Qed.
