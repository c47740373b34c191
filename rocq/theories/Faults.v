(** Faults: the [Validation.*] call belonging to each complaint about a parsed document
    (errors/validation.py:8-143), as [Errors.parse_error] is for complaints about a text. *)
From Verif Require Import Base Types Messages Reporter Errors.

Inductive complaint :=
| BadComment (message : text) (e : nat)
| BadElement (message : text) (e : nat)
| BadKey (message : text) (e : nat)
| BadValue (message : text) (e : nat)
| NoComment (e : nat)
| NoElement (key : option text) (parent : nat) (q : qmsg)
| NoValue (e : nat)
| NotExpected (message : option text) (e : nat)
| TooMany (key : option text) (es : list nat) (q : qmsg)
| OtherKind (key : option text) (e : nat) (q : qmsg).

Definition validation_error (c : ctx) (v : complaint) : res eno_error :=
  match v with
  | BadComment m e => v_comment_error c m e
  | BadElement m e => v_element_error c m e
  | BadKey m e => v_key_error c m e
  | BadValue m e => v_value_error c m e
  | NoComment e => v_missing_comment c e
  | NoElement k p q => v_missing_element c k p q
  | NoValue e => v_missing_value c e
  | NotExpected m e => v_unexpected_element c m e
  | TooMany k es q => v_unexpected_multiple_elements c k es q
  | OtherKind k e q => v_unexpected_element_type c k e q
  end.

(** the elements complained about *)
Definition concerned (v : complaint) : list nat :=
  match v with
  | BadComment _ e | BadElement _ e | BadKey _ e | BadValue _ e | NoComment e | NoElement _ e _ | NoValue e
  | NotExpected _ e | OtherKind _ e _ => [e]
  | TooMany _ es _ => es
  end.
