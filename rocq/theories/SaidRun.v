(** SaidRun: the analysis depends only on what a text says (lemmas for C57). *)
From Verif Require Import Base Regex Grammar Scan ScanProofs Types Analyzer TokenStep StepProofs ScanFacts HeapFacts AnalyzerInv AnalyzerLoop SpecText SpecRun SpecSaid.

(** * Nodes without positions *)

Definition comment_column (l : leaf) : nat :=
  match rget (l_ranges l) R_comment with Some (b, _) => b - fst (line_range (l_ranges l)) | None => 0 end.
Definition plain_comment (col : nat) (t : option text) : leaf := MkLeaf (Some COMMENT) 0 [(R_comment, (col, 0))] t false.
Definition skin_comment (l : leaf) : leaf := plain_comment (comment_column l) (l_text l).
Definition plain (p : list (nat * option text)) : list leaf := map (fun ct => plain_comment (fst ct) (snd ct)) p.
Definition lev (cs : list leaf) : list leaf := plain (level (map (fun l => (comment_column l, l_text l)) cs)).
Definition skin_cont (l : leaf) : leaf := MkLeaf (Some CONTINUATION) 0 [] (l_text l) (l_spaced l).
Definition text_leaf (t : text) : leaf := MkLeaf None 0 [] (Some t) false.
Definition skin_lines (inp : text) (o : option (list leaf)) : option (list leaf) :=
  match o with
  | Some (l :: ls) => Some [text_leaf (slice inp (fst (line_range (l_ranges l))) (snd (line_range (l_ranges (last ls l)))))]
  | Some [] => Some []
  | None => None
  end.
Definition skin (inp : text) (n : node) : node :=
  MkNode (n_type n) 0 [] (n_key n) (n_value n) (option_map lev (n_comments n)) (n_parent n) (n_elements n) (n_items n) (n_entries n)
    (option_map (map skin_cont) (n_conts n)) (skin_lines inp (n_lines n)) None (n_template n) (n_deep_copy n) (n_deep_resolve n) (n_copy n) (n_mirror n) (n_extend n)
    (n_cvalue n) (n_ccomment n) (n_cels n) (n_centries n) (n_citems n).
Definition skins (inp : text) (h : heap) : heap := map (skin inp) h.

Lemma skins_get inp h i : hget (skins inp h) i = skin inp (hget h i).
Proof. unfold hget, skins. change document_node with (skin inp document_node) at 1. apply map_nth. Qed.
Lemma skins_upd inp h i f g : (forall n, skin inp (f n) = g (skin inp n)) -> skins inp (hupd h i f) = hupd (skins inp h) i g.
Proof. intro H. unfold hupd, skins. revert i. induction h as [|x h IH]; intros [|i]; cbn; try reflexivity; [now rewrite H|now rewrite IH]. Qed.
Lemma skins_app inp h n : skins inp (h ++ [n]) = skins inp h ++ [skin inp n]. Proof. apply map_app. Qed.
Lemma skins_length inp h : length (skins inp h) = length h. Proof. apply map_length. Qed.

Lemma column_skin l : comment_column (skin_comment l) = comment_column l.
Proof. unfold skin_comment. unfold comment_column at 1. cbn. lia. Qed.
Lemma lev_under o : option_map lev (option_map (map skin_comment) o) = option_map lev o.
Proof.
  destruct o as [cs|]; [|reflexivity]. cbn [option_map]. f_equal. unfold lev. f_equal. f_equal. rewrite map_map. apply map_ext. intro l. rewrite column_skin. reflexivity.
Qed.
Lemma leftmost_under p m : leftmost p = Some m -> leftmost (map (fun ct => (fst ct - m, snd ct)) p) = Some 0.
Proof.
  assert (forall k p, leftmost (map (fun ct => (fst ct - k, snd ct)) p) = option_map (fun x => x - k) (leftmost p)) as K.
  { intros k q. induction q as [|[c [t|]] q IH]; cbn; [reflexivity| |assumption]. rewrite IH. destruct (leftmost q); cbn; f_equal; lia. }
  intro H. rewrite K, H. cbn. f_equal. lia.
Qed.
Lemma level_level p : level (level p) = level p.
Proof.
  unfold level at 1. assert (match leftmost (level p) with Some m => m | None => 0 end = 0) as ->.
  - unfold level. destruct (leftmost p) as [m|] eqn:E; [now rewrite (leftmost_under p m E)|].
    assert (leftmost (map (fun ct => (fst ct - 0, snd ct)) p) = None) as ->; [|reflexivity]. revert E. induction p as [|[c [t|]] p IH]; cbn; auto. discriminate.
  - rewrite map_ext with (g := fun x => x); [apply map_id|]. intros [c t]. cbn. f_equal. lia.
Qed.
Lemma lev_plain p : lev (plain p) = plain (level p).
Proof. unfold lev, plain. rewrite map_map. cbn. do 2 f_equal. rewrite map_ext with (g := fun x => x); [apply map_id|]. intros [c t]. cbn. unfold comment_column. cbn. f_equal. lia. Qed.

(** * One instruction *)

Definition no_leaf : leaf := MkLeaf None 0 [] None false.
Definition skin_err (e : perr) : perr :=
  match e with
  | PInvalidLine _ => PInvalidLine no_leaf
  | PMissingElementForContinuation _ => PMissingElementForContinuation no_leaf
  | PMissingListForItem _ => PMissingListForItem no_leaf
  | PMissingFieldsetForEntry _ => PMissingFieldsetForEntry no_leaf
  | PLayerSkip _ s => PLayerSkip no_leaf s
  | x => x
  end.

Definition skin_ast (inp : text) (st : ast) : ast :=
  MkA (skins inp (a_heap st)) [] 0 0 (a_depth st) (option_map (map skin_comment) (a_comments st)) (a_lce st) (a_lnse st) (a_lsec st) (a_cs st) (a_cn st).

Definition astep (st : ast) (x : said) : ast + perr :=
  let h := a_heap st in
  let id := length h in
  let new t := set_comments (option_map lev (a_comments st)) t in
  let go h d lce lnse lsec cs cn := inl (MkA h [] 0 0 d None lce lnse lsec cs cn) in
  match x with
  | SaysEmpty => go h (a_depth st) (a_lce st) (a_lnse st) (a_lsec st) (a_cs st) (a_cn st)
  | SaysComment c t =>
      inl (MkA h [] 0 0 (a_depth st) (Some (match a_comments st with Some l => l | None => [] end ++ [plain_comment c t])) (a_lce st) (a_lnse st) (a_lsec st) (a_cs st) (a_cn st))
  | SaysContinuation s v =>
      match a_lce st with
      | None => inr (PMissingElementForContinuation no_leaf)
      | Some c => go (add_continuation h c (MkLeaf (Some CONTINUATION) 0 [] v s)) (a_depth st) (Some c) (a_lnse st) (a_lsec st) (a_cs st) (a_cn st)
      end
  | SaysItem v =>
      match a_lnse st with
      | Some lst =>
          if takes_items (n_type (hget h lst)) then
            go (hupd (h ++ [new (set_value v (set_parent (Some lst) (new_node LIST_ITEM 0 [])))]) lst (add_item id)) (a_depth st) (Some id) (Some lst) (a_lsec st) (a_cs st) (a_cn st)
          else inr (PMissingListForItem no_leaf)
      | None => inr (PMissingListForItem no_leaf)
      end
  | SaysEntry k v =>
      match a_lnse st with
      | Some lst =>
          if takes_entries (n_type (hget h lst)) then
            go (hupd (h ++ [new (set_key (Some k) (set_value v (set_parent (Some lst) (new_node FIELDSET_ENTRY 0 []))))]) lst (add_entry id)) (a_depth st) (Some id) (Some lst) (a_lsec st) (a_cs st) (a_cn st)
          else inr (PMissingFieldsetForEntry no_leaf)
      | None => inr (PMissingFieldsetForEntry no_leaf)
      end
  | SaysField k v =>
      go (add_element (h ++ [new (set_key (Some k) (set_value v (set_parent (Some (a_lsec st)) (new_node (if opt_is v then FIELD else EMPTY_ELEMENT) 0 []))))]) (a_lsec st) id)
        (a_depth st) (Some id) (Some id) (a_lsec st) (a_cs st) (a_cn st)
  | SaysMultiline k v =>
      go (hupd (add_element (h ++ [new (set_key (Some k) (set_parent (Some (a_lsec st)) (new_node MULTILINE_FIELD_BEGIN 0 [])))]) (a_lsec st) id) id
            (set_lines (option_map (fun t => [text_leaf t]) v))) (a_depth st) None None (a_lsec st) (a_cs st) (a_cn st)
  | SaysCopy k t =>
      go (add_element (h ++ [new (set_key (Some k) (set_parent (Some (a_lsec st)) (set_template (Some t) (set_copy true (new_node EMPTY_ELEMENT 0 [])))))]) (a_lsec st) id)
        (a_depth st) None (Some id) (a_lsec st) (a_cs st) (add_target t id (a_cn st))
  | SaysSection d k t =>
      match section_parent st d with
      | None => inr (PLayerSkip no_leaf (a_lsec st))
      | Some None => inr (PInvalidLine no_leaf)
      | Some (Some p) =>
          let n := new (set_key (Some k) (set_parent (Some p) (set_template (option_map snd t)
                     (set_deep_copy (match t with Some (b, _) => b | None => false end) (set_copy (opt_is t) (new_node SECTION 0 [])))))) in
          let h1 := add_element (h ++ [n]) p id in
          match t with
          | None => go h1 d None None id (a_cs st) (a_cn st)
          | Some (_, ts) =>
              match mark_deep (S (length h)) h1 p with
              | Some h2 => go h2 d None None id (add_target ts id (a_cs st)) (a_cn st)
              | None => inr (PInvalidLine no_leaf)
              end
          end
      end
  end.

Section Sim.
  Context (inp : text).
  Local Notation sk := (skins inp).

  Lemma skins_add_element h n s id : sk (add_element (h ++ [n]) s id) = add_element (sk h ++ [skin inp n]) s id.
  Proof. unfold add_element. rewrite <- skins_app. apply skins_upd. reflexivity. Qed.
  Lemma skins_cont h e c : sk (add_continuation h e c) = add_continuation (sk h) e (skin_cont c).
  Proof.
    unfold add_continuation. apply skins_upd. intro n. cbn [skin n_conts n_type]. destruct (n_conts n) as [cs|] eqn:E; cbn [option_map].
    - unfold skin, set_conts. cbn. now rewrite map_app.
    - destruct (itype_eqb (n_type n) EMPTY_ELEMENT); reflexivity.
  Qed.
  Lemma skins_items h n l id : sk (hupd (h ++ [n]) l (add_item id)) = hupd (sk h ++ [skin inp n]) l (add_item id).
  Proof. rewrite <- skins_app. apply skins_upd. intro x. unfold add_item. cbn [n_type skin]. now destruct (n_type x). Qed.
  Lemma skins_entries h n l id : sk (hupd (h ++ [n]) l (add_entry id)) = hupd (sk h ++ [skin inp n]) l (add_entry id).
  Proof. rewrite <- skins_app. apply skins_upd. intro x. unfold add_entry. cbn [n_type skin]. now destruct (n_type x). Qed.
  Lemma skins_end h i e ls : sk (hupd h i (fun x => set_end e (set_lines ls x))) = hupd (sk h) i (set_lines (skin_lines inp ls)).
  Proof. apply skins_upd. reflexivity. Qed.
  Lemma climb_skins h n : forall s, climb (sk h) n s = climb h n s.
  Proof. induction n as [|n IH]; intro s; cbn [climb]; [reflexivity|]. rewrite skins_get. cbn [skin n_parent]. destruct (n_parent (hget h s)); [apply IH|reflexivity]. Qed.
  Lemma section_parent_skins st d : section_parent (skin_ast inp st) d = section_parent st d.
  Proof.
    unfold section_parent. cbn [skin_ast a_heap a_depth a_lsec]. rewrite climb_skins, !skins_get. cbn [skin n_parent].
    destruct (Nat.eqb d (a_depth st + 1)); [reflexivity|]. destruct (Nat.eqb d (a_depth st)); [reflexivity|]. destruct (Nat.ltb d (a_depth st)); [|reflexivity].
    destruct (climb (a_heap st) (a_depth st - d) (a_lsec st)); [|reflexivity]. now rewrite skins_get.
  Qed.
  Lemma mark_deep_skins f : forall h p, mark_deep f (sk h) p = option_map sk (mark_deep f h p).
  Proof.
    induction f as [|f IH]; intros h p; cbn [mark_deep option_map]; [reflexivity|]. rewrite skins_get. cbn [skin n_type n_parent].
    destruct (itype_eqb (n_type (hget h p)) DOCUMENT); [reflexivity|]. destruct (n_parent (hget h p)) as [q|]; [|reflexivity].
    rewrite <- IH. f_equal. symmetry. apply skins_upd. reflexivity.
  Qed.
  Lemma last_shift {A} (a : list A) : forall x b, last (x :: a) b = last a x.
  Proof. induction a as [|y a IH]; intros x b; [reflexivity|]. change (last (x :: y :: a) b) with (last (y :: a) b). now rewrite !IH. Qed.
  Lemma ml_value f : forall i line stop ls line', ml_lines inp f i line stop = Some (ls, line') ->
    exists l ls', ls = l :: ls' /\ fst (line_range (l_ranges l)) = i /\ snd (line_range (l_ranges (last ls' l))) = stop.
  Proof.
    induction f as [|f IH]; intros i line stop ls line'; cbn [ml_lines]; [discriminate|]. destruct (find_nl_to inp i stop) as [e|].
    - destruct (ml_lines inp f (e + 1) (line + 1) stop) as [[ls1 l1]|] eqn:E; [|discriminate]. intros [= <- <-]. destruct (IH _ _ _ _ _ E) as (l & ls' & -> & H1 & H2).
      do 2 eexists. split; [reflexivity|]. split; [reflexivity|]. now rewrite last_shift.
    - intros [= <- <-]. exists (MkLeaf (Some MULTILINE_FIELD_VALUE) line [(R_line, (i, stop)); (R_value, (i, stop))] None false), []. auto.
  Qed.
  Lemma comment_leaf_skin st e op v : skin_comment (comment_leaf inp st e op v) = plain_comment (match v with Some s => fst s - a_index st | None => 0 end) (text_at inp v).
  Proof. unfold skin_comment, comment_column, comment_leaf. destruct v as [[b x]|]; reflexivity. Qed.
  Lemma more_skin o c : option_map (map skin_comment) (match o with None => Some [c] | Some cs => Some (cs ++ [c]) end) =
    Some (match option_map (map skin_comment) o with Some l => l | None => [] end ++ [skin_comment c]).
  Proof. destruct o; cbn; [now rewrite map_app|reflexivity]. Qed.

  Definition outcome_as (r : sres) (x : ast + perr) : Prop :=
    match r, x with
    | SOk st, inl a => a = skin_ast inp st
    | SErr e _ _, inr a => a = skin_err e
    | _, _ => False
    end.
  Lemma fails_as st i line mk e : (forall l, skin_err (mk l) = e) -> outcome_as (fail_at inp st i line mk) (inr e).
  Proof. intro H. destruct (fail_at_err inp st i line mk) as (l & ls & lc & _ & ->). cbn. now rewrite H. Qed.

  Lemma step_as st t e x : AInv st -> a_index st <= length inp -> scan (a_index st) (skipn (a_index st) inp) = Some (t, e) ->
    meaning inp (a_index st) t = Some x -> outcome_as (tstep_tok inp st t e) (astep (skin_ast inp st) x).
  Proof.
    intros HI Hix Hsc Hm. pose proof (tstep_tok_inv inp st t e HI Hix Hsc) as HT.
    destruct t as [at_|op v|op v|op v|op v|op k|op k t|k op v|k op v|k op t]; cbn [meaning] in Hm; try discriminate; injection Hm as <-;
      cbn [astep tstep_tok]; cbn [tstep_tok] in HT; cbn [skin_ast a_heap a_depth a_lce a_lnse a_lsec a_cs a_cn a_comments]; cbv zeta; rewrite ?skins_length, ?lev_under.
    - reflexivity.
    - destruct (a_lce st) as [c|]; [|now apply fails_as]. cbn [outcome_as]. unfold skin_ast. cbn [a_heap a_depth a_comments a_lce a_lnse a_lsec a_cs a_cn]. now rewrite skins_cont.
    - destruct (a_lce st) as [c|]; [|now apply fails_as]. cbn [outcome_as]. unfold skin_ast. cbn [a_heap a_depth a_comments a_lce a_lnse a_lsec a_cs a_cn]. now rewrite skins_cont.
    - cbn [outcome_as]. unfold skin_ast. cbn [a_heap a_depth a_comments a_lce a_lnse a_lsec a_cs a_cn]. now rewrite more_skin, comment_leaf_skin.
    - destruct (a_lnse st) as [l|]; [|now apply fails_as]. rewrite skins_get. cbn [skin n_type]. destruct (takes_items (n_type (hget (a_heap st) l))); [|now apply fails_as].
      cbn [outcome_as]. unfold skin_ast. cbn [a_heap a_depth a_comments a_lce a_lnse a_lsec a_cs a_cn]. now rewrite skins_items.
    - rewrite section_parent_skins. change (width op) with (snd op - fst op). destruct (section_parent st (snd op - fst op)) as [[p|]|]; [|contradiction|now apply fails_as].
      destruct t as [[o s]|].
      + cbn [option_map fst snd] in *.
        assert (forall b, skin inp (section_node inp st e op k (Some (o, s)) p) = b -> add_element (sk (a_heap st) ++ [b]) p (length (a_heap st)) =
          sk (add_element (a_heap st ++ [section_node inp st e op k (Some (o, s)) p]) p (length (a_heap st)))) as K by (intros b <-; now rewrite skins_add_element).
        erewrite K by reflexivity. rewrite mark_deep_skins.
        destruct (mark_deep (S (length (a_heap st))) (add_element (a_heap st ++ [section_node inp st e op k (Some (o, s)) p]) p (length (a_heap st))) p) as [h2|]; [reflexivity|contradiction].
      + cbn [option_map outcome_as]. unfold skin_ast. cbn [a_heap a_depth a_comments a_lce a_lnse a_lsec a_cs a_cn]. now rewrite skins_add_element.
    - cbn [outcome_as]. unfold skin_ast. cbn [a_heap a_depth a_comments a_lce a_lnse a_lsec a_cs a_cn]. rewrite skins_add_element. now destruct v.
    - destruct (a_lnse st) as [l|]; [|now apply fails_as]. rewrite skins_get. cbn [skin n_type]. destruct (takes_entries (n_type (hget (a_heap st) l))); [|now apply fails_as].
      cbn [outcome_as]. unfold skin_ast. cbn [a_heap a_depth a_comments a_lce a_lnse a_lsec a_cs a_cn]. now rewrite skins_entries.
    - cbn [outcome_as]. unfold skin_ast. cbn [a_heap a_depth a_comments a_lce a_lnse a_lsec a_cs a_cn]. now rewrite skins_add_element.
  Qed.

  Lemma multiline_as st op k e stop o2 k2 e2 : AInv st -> a_index st <= length inp -> scan (a_index st) (skipn (a_index st) inp) = Some (TMultiline op k, e) ->
    find_closing (at_range inp op) (at_range inp k) e (skipn e inp) = Some (stop, (o2, k2, e2)) ->
    exists st', tstep_tok inp st (TMultiline op k) e = SOk st' /\ a_index st' = S e2 /\
      astep (skin_ast inp st) (SaysMultiline (at_range inp k) (if Nat.eqb stop e then None else Some (slice inp (S e) stop))) = inl (skin_ast inp st').
  Proof.
    intros HI Hix Hsc Hf. cbn [tstep_tok]. change (sub inp op) with (at_range inp op). change (sub inp k) with (at_range inp k). rewrite Hf.
    destruct (Nat.eqb stop e).
    - eexists. split; [reflexivity|]. split; [reflexivity|]. cbn [astep]. cbv zeta. cbn [skin_ast a_heap a_depth a_lce a_lnse a_lsec a_cs a_cn a_comments].
      unfold skin_ast. cbn [a_heap a_depth a_comments a_lce a_lnse a_lsec a_cs a_cn]. rewrite skins_length, ?lev_under. rewrite skins_end, skins_add_element. reflexivity.
    - pose proof (ml_total inp (S (length inp)) (S e) (S (a_line st)) stop ltac:(lia) ltac:(lia)) as Ht.
      destruct (ml_lines inp (S (length inp)) (S e) (S (a_line st)) stop) as [[ls line3]|] eqn:El; [|congruence]. destruct (ml_value _ _ _ _ _ _ El) as (l & ls' & -> & E1 & E2).
      eexists. split; [reflexivity|]. split; [reflexivity|]. cbn [astep]. cbv zeta. cbn [skin_ast a_heap a_depth a_lce a_lnse a_lsec a_cs a_cn a_comments].
      unfold skin_ast. cbn [a_heap a_depth a_comments a_lce a_lnse a_lsec a_cs a_cn]. rewrite skins_length, ?lev_under. rewrite skins_end, skins_add_element. cbn [skin_lines option_map]. rewrite E1, E2. reflexivity.
  Qed.
End Sim.
