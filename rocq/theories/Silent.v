(** Silent: building a report never raises an enolib error itself. *)
From Verif Require Import Base Types Messages Reporter Errors Faults.

Definition silent {A} (r : res A) : Prop := match r with Raise (ValidationError _) | Raise (ParseError _) => False | _ => True end.
Lemma s_bind {A B} (x : res A) (f : A -> res B) : silent x -> (forall a, silent (f a)) -> silent (bind x f).
Proof. destruct x as [a|e]; cbn; auto. Qed.
Lemma s_foldM {A B} (f : B -> A -> res B) : (forall b a, silent (f b a)) -> forall l b, silent (foldM f l b).
Proof. intros Hf l. induction l as [|a l IH]; intro b; cbn [foldM]; [exact I|]. apply s_bind; [apply Hf|]. intro. apply IH. Qed.
Lemma s_aset {A} (l : list A) i x : silent (aset l i x). Proof. unfold aset. destruct (Nat.ltb _ _); exact I. Qed.
Lemma s_key_or {A} (o : option A) : silent (key_or o). Proof. destruct o; exact I. Qed.
Lemma s_node_line n : silent (node_line n). Proof. unfold node_line. destruct (n_type n); exact I. Qed.
Lemma s_last {A} (l : list A) : silent (last_of l). Proof. unfold last_of. destruct (rev l); exact I. Qed.

Ltac s1 := first
  [ exact I | apply s_aset | apply s_key_or | apply s_node_line | apply s_last
  | apply s_foldM; intros | apply s_bind; [|intro]
  | match goal with H : context [silent _] |- _ => apply H end
  | match goal with |- silent (match ?x with _ => _ end) => destruct x end
  | match goal with |- silent (if ?x then _ else _) => destruct x end
  | match goal with |- silent (let '(_, _) := ?x in _) => destruct x end ].
Lemma s_leaves o ix : silent (index_leaves o ix). Proof. unfold index_leaves. repeat s1. Qed.
Lemma s_continuables h o ix : silent (index_continuables h o ix). Proof. unfold index_continuables. repeat first [apply s_leaves|s1]. Qed.
Lemma s_traverse f h : forall s ix, silent (traverse f h s ix).
Proof. induction f; intros s ix; cbn [traverse]; repeat first [apply s_leaves|apply s_continuables|s1]. Qed.
Lemma s_new c : silent (new_reporter c). Proof. unfold new_reporter, build_index. repeat first [apply s_traverse|s1]. Qed.
Lemma s_gap n : forall scan t s, silent (tag_gap n scan t s). Proof. induction n; intros; cbn [tag_gap]; repeat s1. Qed.
Lemma s_tag_continuations n t s : silent (tag_continuations n t s). Proof. unfold tag_continuations. repeat first [apply s_gap|s1]. Qed.
Lemma s_tag_continuables h n o t s : silent (tag_continuables h n o t s). Proof. unfold tag_continuables. repeat first [apply s_gap|apply s_tag_continuations|s1]. Qed.
Lemma s_tag f h : forall e t s, silent (tag_element f h e t s).
Proof. induction f; intros e t s; cbn [tag_element]; repeat first [apply s_gap|apply s_tag_continuations|apply s_tag_continuables|s1]. Qed.
Lemma s_flat f h els : forall t s sc, silent (tag_flat f h els t s sc).
Proof. induction els; intros t s sc; cbn [tag_flat]; repeat first [apply s_gap|apply s_tag|s1]. Qed.
Lemma s_mark_line r l t : silent (mark_line r l t). Proof. unfold mark_line. repeat s1. Qed.
Lemma s_mark_node r e t : silent (mark_node r e t). Proof. unfold mark_node. repeat first [apply s_mark_line|s1]. Qed.
Lemma s_comments r e : silent (report_comments r e). Proof. unfold report_comments. repeat first [apply s_mark_node|apply s_mark_line|s1]. Qed.
Lemma s_element r e : silent (report_element r e). Proof. unfold report_element. repeat first [apply s_mark_node|apply s_tag|s1]. Qed.
Lemma s_elements r es : silent (report_elements r es). Proof. apply s_foldM. intros. apply s_element. Qed.
Lemma s_multiline r e : silent (report_multiline_value r e). Proof. unfold report_multiline_value. repeat first [apply s_mark_line|s1]. Qed.
Lemma s_missing r e : silent (report_missing_element r e). Proof. unfold report_missing_element. repeat first [apply s_mark_line|apply s_flat|apply s_tag|s1]. Qed.
Lemma s_indicate_line r e : silent (indicate_line r e). Proof. unfold indicate_line. apply s_mark_node. Qed.
Lemma s_report_line r e : silent (report_line r e). Proof. unfold report_line. apply s_mark_node. Qed.
Lemma s_print_lines pl : (forall n t, silent (pl n t)) -> forall s n, silent (print_lines pl n s).
Proof. intros H s. induction s as [|[t|] s IH]; intro n; cbn [print_lines]; repeat s1. Qed.
Lemma s_content c i : silent (line_content c i). Proof. unfold line_content. repeat s1. Qed.
Lemma s_print r : silent (print r).
Proof.
  unfold print. destruct (c_reporter _); (apply s_bind; [apply s_print_lines|intro; repeat s1]); intros n t;
    [unfold text_line|unfold html_line|unfold terminal_line]; destruct t; repeat first [apply s_content|s1].
Qed.
Lemma s_snippet r : silent (snippet r).
Proof. unfold snippet. apply s_bind; [|intro; apply s_print]. unfold complete. repeat s1. Qed.
Lemma s_report c f : (forall r, silent (f r)) -> silent (report c f).
Proof. intro H. unfold report. repeat first [apply s_new|apply s_snippet|s1]. Qed.
Lemma s_last_in f h : forall e, silent (last_in f h e). Proof. induction f; intro e; cbn [last_in]; repeat s1. Qed.
Lemma s_cursor i r p : silent (cursor i r p). Proof. unfold cursor. repeat s1. Qed.
Lemma s_selection i r p i' r' p' : silent (selection i r p i' r' p'). Proof. unfold selection. repeat first [apply s_cursor|s1]. Qed.
Ltac s2 := first [ progress unfold v_comment_error, v_element_error, v_key_error, v_value_error, v_missing_comment, v_missing_element, v_missing_value,
    v_unexpected_element, v_unexpected_multiple_elements, v_unexpected_element_type, select_comments, select_element, select_key, select_line, select_range, select_point, build, key, human_line
  | apply s_comments | apply s_element | apply s_elements | apply s_multiline | apply s_missing | apply s_mark_node | apply s_report_line | apply s_indicate_line
  | apply s_last_in | apply s_cursor | apply s_selection | apply s_report; intro | apply s_new | apply s_snippet | s1 ].
Lemma s_validation c v : silent (validation_error c v).
Proof. destruct v; cbn [validation_error]; repeat s2. Qed.
Lemma no_validation c v x : validation_error c v <> Raise (ValidationError x).
Proof. intro E. pose proof (s_validation c v) as H. now rewrite E in H. Qed.
