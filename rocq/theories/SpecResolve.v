(** SpecResolve: copies, templates and their dependencies (SPEC for C19-C26).  Mentions only data. *)
From Coq Require Import Relations.
From Verif Require Import Base Types SpecTree.

(** copies are resolved among sections ([sec = true]) or among the other elements *)
Definition of_kind (sec : bool) (n : node) : Prop := if sec then is_section n else is_element n.

(** [i] copies something called [k] *)
Definition copies (sec : bool) (h : heap) (i : nat) (k : text) : Prop :=
  i < length h /\ of_kind sec (hget h i) /\ n_template (hget h i) = Some k.

(** [t] can be what copies of [k] mean: it is called [k] and does not itself copy [k] *)
Definition candidate (sec : bool) (h : heap) (k : text) (t : nat) : Prop :=
  t < length h /\ of_kind sec (hget h t) /\ n_key (hget h t) = Some k /\ n_template (hget h t) <> Some k.

(** [t] is the template of [i]: the only candidate *)
Definition template_is (sec : bool) (h : heap) (i t : nat) : Prop :=
  exists k, copies sec h i k /\ candidate sec h k t /\ forall t', candidate sec h k t' -> t' = t.

(** [i] has no template *)
Definition dangling (sec : bool) (h : heap) (i : nat) : Prop :=
  exists k, copies sec h i k /\ forall t, ~ candidate sec h k t.

(** [a] encloses [i] *)
Inductive encloses (h : heap) : nat -> nat -> Prop :=
| enc_parent i p : n_parent (hget h i) = Some p -> encloses h p i
| enc_up i p a : n_parent (hget h i) = Some p -> encloses h a p -> encloses h a i.

(** a section that copies another one, or contains such a section *)
Definition unsettled (h : heap) (s : nat) : Prop :=
  is_section (hget h s) /\
  ((exists k, copies true h s k) \/ exists i k, encloses h s i /\ copies true h i k).

(** resolving [i] requires resolving [j]: its template, or an unsettled subsection *)
Definition depends (sec : bool) (h : heap) (i j : nat) : Prop :=
  template_is sec h i j \/
  sec = true /\ is_section (hget h i) /\ j < length h /\ n_parent (hget h j) = Some i /\ unsettled h j.

(** [i] is on a dependency cycle *)
Definition on_cycle (sec : bool) (h : heap) (i : nat) : Prop := clos_trans nat (depends sec h) i i.

(** consecutive members depend on each other, the last one depends on [e] *)
Fixpoint chain (sec : bool) (h : heap) (l : list nat) (e : nat) : Prop :=
  match l with
  | [] => True
  | x :: l' => depends sec h x (hd e l') /\ chain sec h l' e
  end.

(** what a non-section element is once copies are taken into account: a bare copy is what its
    template is (a copied multiline field counts as a field) *)
Inductive means (h : heap) : nat -> itype -> Prop :=
| me_own i : n_template (hget h i) = None \/ n_type (hget h i) <> EMPTY_ELEMENT -> means h i (n_type (hget h i))
| me_copy i t ty : template_is false h i t -> n_type (hget h i) = EMPTY_ELEMENT -> means h t ty ->
    means h i (match ty with MULTILINE_FIELD_BEGIN => FIELD | _ => ty end).

(** * Faults in the copies of a document *)

(** two candidates for what [c] copies *)
Definition ambiguous (h : heap) (c f e : nat) : Prop :=
  exists sec k, copies sec h c k /\ candidate sec h k f /\ candidate sec h k e /\ f <> e.
(** an entry / item is added to a copy of something else *)
Definition stray_entry (h : heap) (x : nat) : Prop :=
  exists e t ty, template_is false h e t /\ n_type (hget h e) = FIELDSET /\ n_parent (hget h x) = Some e /\
    n_type (hget h x) = FIELDSET_ENTRY /\ means h t ty /\ (ty = FIELD \/ ty = LIST \/ ty = MULTILINE_FIELD_BEGIN).
Definition stray_item (h : heap) (x : nat) : Prop :=
  exists e t ty, template_is false h e t /\ n_type (hget h e) = LIST /\ n_parent (hget h x) = Some e /\
    n_type (hget h x) = LIST_ITEM /\ means h t ty /\ (ty = FIELD \/ ty = FIELDSET \/ ty = MULTILINE_FIELD_BEGIN).
(** a chain of copies ends at one that copies nothing that exists *)
Definition leads_to_dangling (sec : bool) (h : heap) : Prop :=
  exists i j, clos_trans nat (depends sec h) i j /\ dangling sec h j.
