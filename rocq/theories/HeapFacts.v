(** HeapFacts: the part of an instruction that analysis never changes after creation, child lists,
    and the heap updates the analyzer performs. *)
From Verif Require Import Base Types Analyzer Scan TokenStep StepProofs.

Inductive nclass := CDoc | CSec | CElem | CItem | CEntry | COther.
Definition cls (t : itype) : nclass :=
  match t with
  | DOCUMENT => CDoc | SECTION => CSec | LIST_ITEM => CItem | FIELDSET_ENTRY => CEntry
  | EMPTY_ELEMENT | FIELD | FIELDSET | LIST | MULTILINE_FIELD_BEGIN => CElem
  | _ => COther
  end.
Definition ncls (n : node) : nclass := cls (n_type n).
Definition nclass_eqb (a b : nclass) : bool :=
  match a, b with
  | CDoc, CDoc | CSec, CSec | CElem, CElem | CItem, CItem | CEntry, CEntry | COther, COther => true
  | _, _ => false
  end.
Lemma nclass_eqb_eq a b : nclass_eqb a b = true <-> a = b.
Proof. destruct a, b; simpl; split; congruence. Qed.

(** never changed by the analyzer after creation *)
Definition stat (n : node) :=
  (n_line n, n_ranges n, n_key n, n_value n, n_comments n, n_parent n, n_template n,
   (n_deep_copy n, n_copy n, n_mirror n, n_extend n),
   (n_cvalue n, n_ccomment n, n_cels n, n_centries n, n_citems n), ncls n).
(** everything else but the deep resolution mark *)
Definition dyn (n : node) :=
  (n_type n, n_elements n, n_items n, n_entries n, n_conts n, n_lines n, n_end n).

Definition benign (g : node -> node) : Prop := forall x, stat (g x) = stat x.

Lemma benign_elements v : benign (fun n => set_elements (v n) n). Proof. intro x; reflexivity. Qed.
Lemma benign_add_item id : benign (add_item id).
Proof.
  intro x. unfold add_item, stat, ncls. destruct (n_type x) eqn:E; cbn; rewrite ?E; reflexivity.
Qed.
Lemma benign_add_entry id : benign (add_entry id).
Proof.
  intro x. unfold add_entry, stat, ncls. destruct (n_type x) eqn:E; cbn; rewrite ?E; reflexivity.
Qed.
Definition cont_upd (c : leaf) (n : node) : node :=
  match n_conts n with
  | Some cs => set_conts (Some (cs ++ [c])) n
  | None => set_conts (Some [c]) (if itype_eqb (n_type n) EMPTY_ELEMENT then set_type FIELD n else n)
  end.
Lemma benign_cont c : benign (cont_upd c).
Proof.
  intro x. unfold cont_upd, stat, ncls. destruct (n_conts x); [reflexivity|].
  destruct (itype_eqb (n_type x) EMPTY_ELEMENT) eqn:E; cbn; [|reflexivity].
  apply itype_eqb_eq in E. rewrite E. reflexivity.
Qed.
Lemma benign_deep v : benign (set_deep_resolve v). Proof. intro x; reflexivity. Qed.
Lemma benign_end e ls : benign (fun x => set_end e (set_lines ls x)). Proof. intro x; reflexivity. Qed.

Lemma map_stat_upd h i g : benign g -> map stat (upd h i g) = map stat h.
Proof.
  intro Hb. revert i. induction h as [|x h IH]; intros [|i]; cbn [upd map]; try reflexivity.
  - now rewrite Hb.
  - now rewrite IH.
Qed.

Lemma map_stat_get h h' i : map stat h = map stat h' -> stat (hget h i) = stat (hget h' i).
Proof.
  intro H. unfold hget. rewrite <- !(map_nth stat). now rewrite H.
Qed.
Lemma map_stat_length h h' : map stat h = map stat h' -> length h = length h'.
Proof. intro H. apply (f_equal (@length _)) in H. now rewrite !map_length in H. Qed.

Section Stat.
  Context (x y : node) (H : stat x = stat y).
  Lemma stat_line : n_line x = n_line y. Proof. unfold stat in H. congruence. Qed.
  Lemma stat_ranges : n_ranges x = n_ranges y. Proof. unfold stat in H. congruence. Qed.
  Lemma stat_key : n_key x = n_key y. Proof. unfold stat in H. congruence. Qed.
  Lemma stat_value : n_value x = n_value y. Proof. unfold stat in H. congruence. Qed.
  Lemma stat_comments : n_comments x = n_comments y. Proof. unfold stat in H. congruence. Qed.
  Lemma stat_parent : n_parent x = n_parent y. Proof. unfold stat in H. congruence. Qed.
  Lemma stat_template : n_template x = n_template y. Proof. unfold stat in H. congruence. Qed.
  Lemma stat_copy : n_copy x = n_copy y. Proof. unfold stat in H. congruence. Qed.
  Lemma stat_deep_copy : n_deep_copy x = n_deep_copy y. Proof. unfold stat in H. congruence. Qed.
  Lemma stat_mirror : n_mirror x = n_mirror y. Proof. unfold stat in H. congruence. Qed.
  Lemma stat_extend : n_extend x = n_extend y. Proof. unfold stat in H. congruence. Qed.
  Lemma stat_cls : ncls x = ncls y. Proof. unfold stat in H. congruence. Qed.
End Stat.

(** * Reading updated heaps *)

Lemma hget_app_l h n i : i < length h -> hget (h ++ [n]) i = hget h i.
Proof. intro H. unfold hget. now rewrite app_nth1. Qed.
Lemma hget_app_r h n : hget (h ++ [n]) (length h) = n.
Proof. unfold hget. rewrite app_nth2, Nat.sub_diag by lia. reflexivity. Qed.
Lemma hget_upd_eq h i f : i < length h -> hget (upd h i f) i = f (hget h i).
Proof. intro H. unfold hget. now rewrite nth_upd_eq. Qed.
Lemma hget_upd_neq h i j f : i <> j -> hget (upd h i f) j = hget h j.
Proof. intro H. unfold hget. now rewrite nth_upd_neq. Qed.
Lemma hget_upd h i j f : i < length h -> hget (upd h i f) j = if Nat.eqb i j then f (hget h i) else hget h j.
Proof.
  intro H. destruct (Nat.eqb_spec i j) as [<-|Hne]; [now apply hget_upd_eq|now apply hget_upd_neq].
Qed.

(** * Child lists *)

(** the numbers of the instructions that satisfy [f], in order *)
Definition ids (f : node -> bool) (h : heap) : list nat :=
  filter (fun j => f (hget h j)) (seq 0 (length h)).

Lemma filter_ext_in' {A} (f g : A -> bool) l : (forall x, In x l -> f x = g x) -> filter f l = filter g l.
Proof.
  induction l as [|x l IH]; intro H; [reflexivity|]. cbn [filter]. rewrite (H x) by now left.
  rewrite IH by (intros; apply H; now right). reflexivity.
Qed.

Lemma ids_app f h n : ids f (h ++ [n]) = ids f h ++ (if f n then [length h] else []).
Proof.
  unfold ids. rewrite app_length. cbn [length]. rewrite Nat.add_1_r, seq_S, filter_app.
  cbn [filter]. rewrite Nat.add_0_l, hget_app_r. f_equal.
  apply filter_ext_in'. intros j Hj. apply in_seq in Hj. rewrite hget_app_l by lia. reflexivity.
Qed.

Lemma ids_stat f h h' : (forall x y, stat x = stat y -> f x = f y) ->
  map stat h = map stat h' -> ids f h = ids f h'.
Proof.
  intros Hf H. unfold ids. rewrite (map_stat_length _ _ H). apply filter_ext_in'.
  intros j _. apply Hf. now apply map_stat_get.
Qed.

Lemma in_ids f h j : In j (ids f h) <-> j < length h /\ f (hget h j) = true.
Proof. unfold ids. rewrite filter_In, in_seq. intuition lia. Qed.

Definition has_parent (p : nat) (n : node) : bool :=
  match n_parent n with Some q => Nat.eqb q p | None => false end.
Definition is_cls (c : nclass) (n : node) : bool := nclass_eqb (ncls n) c.
(** elements of section [p], items of list [p], entries of fieldset [p] *)
Definition elem_of (p : nat) (n : node) : bool := has_parent p n && (is_cls CElem n || is_cls CSec n).
Definition item_of (p : nat) (n : node) : bool := has_parent p n && is_cls CItem n.
Definition entry_of (p : nat) (n : node) : bool := has_parent p n && is_cls CEntry n.

Lemma elem_of_stat p x y : stat x = stat y -> elem_of p x = elem_of p y.
Proof. intro H. unfold elem_of, has_parent, is_cls. now rewrite (stat_parent _ _ H), (stat_cls _ _ H). Qed.
Lemma item_of_stat p x y : stat x = stat y -> item_of p x = item_of p y.
Proof. intro H. unfold item_of, has_parent, is_cls. now rewrite (stat_parent _ _ H), (stat_cls _ _ H). Qed.
Lemma entry_of_stat p x y : stat x = stat y -> entry_of p x = entry_of p y.
Proof. intro H. unfold entry_of, has_parent, is_cls. now rewrite (stat_parent _ _ H), (stat_cls _ _ H). Qed.

Definition olist {A} (o : option (list A)) : list A := match o with Some l => l | None => [] end.

(** * Deep resolution marks *)

Definition core (n : node) := (stat n, dyn n).
Lemma map_core_upd_deep h i v : map core (upd h i (set_deep_resolve v)) = map core h.
Proof.
  revert i. induction h as [|x h IH]; intros [|i]; cbn [upd map]; try reflexivity. now rewrite IH.
Qed.
Lemma map_core_stat h h' : map core h = map core h' -> map stat h = map stat h'.
Proof. intro H. apply (f_equal (map fst)) in H. rewrite !map_map in H. exact H. Qed.
Lemma map_core_get h h' i : map core h = map core h' -> core (hget h i) = core (hget h' i).
Proof. intro H. unfold hget. rewrite <- !(map_nth core). now rewrite H. Qed.

Lemma mark_deep_core fuel h p h' : mark_deep fuel h p = Some h' -> map core h' = map core h.
Proof.
  revert h p. induction fuel as [|f IH]; intros h p; cbn [mark_deep]; [discriminate|].
  destruct (itype_eqb (n_type (hget h p)) DOCUMENT); [now intros [= <-]|].
  destruct (n_parent (hget h p)) as [q|]; [|discriminate]. intro H. apply IH in H.
  rewrite H. apply map_core_upd_deep.
Qed.
