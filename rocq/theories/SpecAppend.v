(** SpecAppend: instructions that have been read, and what further lines may add (SPEC for C56). *)
From Verif Require Import Base Types Analyzer SpecText.

(** [y] is [x] after further lines; the instructions of these lines are numbered from [n] on *)
Definition filled (a b : itype) : Prop := a = b \/ a = EMPTY_ELEMENT /\ (b = FIELD \/ b = LIST \/ b = FIELDSET).
Definition longer (n : nat) (a b : list nat) : Prop := exists l, b = a ++ l /\ Forall (le n) l.
Definition listed {A} (o : option (list A)) : list A := match o with Some l => l | None => [] end.
Record continued (n : nat) (x y : node) : Prop := {
  co_line : n_line y = n_line x;
  co_ranges : n_ranges y = n_ranges x;
  co_key : n_key y = n_key x;
  co_value : n_value y = n_value x;
  co_comments : n_comments y = n_comments x;
  co_parent : n_parent y = n_parent x;
  co_template : n_template y = n_template x;
  co_deep : n_deep_copy y = n_deep_copy x;
  co_copy : n_copy y = n_copy x;
  co_lines : n_lines y = n_lines x;
  co_end : n_end y = n_end x;
  co_type : filled (n_type x) (n_type y);
  co_conts : exists l, listed (n_conts y) = listed (n_conts x) ++ l;
  co_elements : longer n (n_elements x) (n_elements y);
  co_items : longer n (listed (n_items x)) (listed (n_items y));
  co_entries : longer n (listed (n_entries x)) (listed (n_entries y))
}.

(** where an error of the analysis is located *)
Definition located (h : heap) (e : perr) : option (nat * nat) :=
  match e with
  | PInvalidLine i | PMissingElementForContinuation i | PMissingListForItem i | PMissingFieldsetForEntry i | PLayerSkip i _ => rget (l_ranges i) R_line
  | PUnterminatedMultiline f => rget (n_ranges (hget h f)) R_line
  | _ => None
  end.
(** errors that further lines may undo *)
Definition open_ended (e : perr) : Prop := match e with PInvalidLine _ | PUnterminatedMultiline _ => True | _ => False end.
