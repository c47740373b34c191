(** RenameRun: the analysis and the copies only compare keys, and do not look at values (lemmas for C60). *)
From Verif Require Import Base Types Analyzer TokenStep Resolver SpecSaid SaidRun SaidLoop Reporter Context ReadOps SpecRename.

Lemma eqb_ren (r : text -> text) (Hr : renaming r) a b : text_eqb (r a) (r b) = text_eqb a b.
Proof.
  destruct (text_eqb a b) eqn:E.
  - apply text_eqb_eq in E as ->. now apply text_eqb_eq.
  - destruct (text_eqb (r a) (r b)) eqn:E'; [|reflexivity]. apply text_eqb_eq in E'. apply Hr in E' as ->. assert (text_eqb b b = true) by now apply text_eqb_eq. congruence.
Qed.
Definition ktab {A} (r : text -> text) (l : list (text * A)) : list (text * A) := map (fun p => (r (fst p), snd p)) l.
Lemma assoc_ktab {A} (r : text -> text) (Hr : renaming r) k (l : list (text * A)) : assoc (r k) (ktab r l) = assoc k l.
Proof. induction l as [|[k' v] l IH]; cbn; [reflexivity|]. rewrite (eqb_ren r Hr). destruct (text_eqb k k'); auto. Qed.
Lemma upd_ktab {A} (r : text -> text) (Hr : renaming r) k f (v : A) l : assoc_upd (r k) f v (ktab r l) = ktab r (assoc_upd k f v l).
Proof. induction l as [|[k' w] l IH]; cbn; [reflexivity|]. rewrite (eqb_ren r Hr). destruct (text_eqb k k'); cbn; [reflexivity|]. f_equal. exact IH. Qed.
Lemma fold_map {A B C} (f : A -> C -> A) (g : B -> C) l : forall a, fold_left f (map g l) a = fold_left (fun a b => f a (g b)) l a.
Proof. induction l as [|b l IH]; intro a; cbn; [reflexivity|apply IH]. Qed.

Definition cast_leaf (o : text -> text) (l : leaf) : leaf := MkLeaf (l_type l) (l_line l) (l_ranges l) (option_map o (l_text l)) (l_spaced l).
Definition cast (r o : text -> text) (n : node) : node :=
  MkNode (n_type n) (n_line n) (n_ranges n) (option_map r (n_key n)) (option_map o (n_value n)) (n_comments n) (n_parent n) (n_elements n) (n_items n) (n_entries n)
    (option_map (map (cast_leaf o)) (n_conts n)) (option_map (map (cast_leaf o)) (n_lines n)) (n_end n) (option_map r (n_template n)) (n_deep_copy n) (n_deep_resolve n) (n_copy n) (n_mirror n) (n_extend n)
    (option_map (option_map o) (n_cvalue n)) (n_ccomment n) (n_cels n) (n_centries n) (n_citems n).
Definition casts (r o : text -> text) (h : heap) : heap := map (cast r o) h.
Lemma casts_get r o h i : hget (casts r o h) i = cast r o (hget h i).
Proof. unfold hget, casts. change document_node with (cast r o document_node) at 1. apply map_nth. Qed.
Lemma casts_upd r o h i f g : (forall n, cast r o (f n) = g (cast r o n)) -> casts r o (hupd h i f) = hupd (casts r o h) i g.
Proof. intro H. unfold hupd, casts. revert i. induction h as [|x h IH]; intros [|i]; cbn; try reflexivity; [now rewrite H|now rewrite IH]. Qed.
Lemma casts_app r o h n : casts r o (h ++ [n]) = casts r o h ++ [cast r o n]. Proof. apply map_app. Qed.
Lemma casts_length r o h : length (casts r o h) = length h. Proof. apply map_length. Qed.

Section Res.
  Context (r o : text -> text) (Hr : renaming r).
  Local Notation sk := (casts r o).

  Definition rmap (r : rres heap) : rres heap :=
    match r with ROk h => ROk (sk h) | RErr e h => RErr e (sk h) | RKey => RKey | RFuel => RFuel end.
  Definition emap {A} (r : rres A) : rres A :=
    match r with RErr e h => RErr e (sk h) | x => x end.

  Lemma type_sk h i : n_type (hget (sk h) i) = n_type (hget h i). Proof. now rewrite casts_get. Qed.
  Lemma copy_sk h i : n_copy (hget (sk h) i) = n_copy (hget h i). Proof. now rewrite casts_get. Qed.
  Lemma deep_sk h i : n_deep_resolve (hget (sk h) i) = n_deep_resolve (hget h i). Proof. now rewrite casts_get. Qed.
  Lemma deepcopy_sk h i : n_deep_copy (hget (sk h) i) = n_deep_copy (hget h i). Proof. now rewrite casts_get. Qed.
  Lemma elements_sk h i : n_elements (hget (sk h) i) = n_elements (hget h i). Proof. now rewrite casts_get. Qed.
  Lemma items_sk h i : n_items (hget (sk h) i) = n_items (hget h i). Proof. now rewrite casts_get. Qed.
  Lemma entries_sk h i : n_entries (hget (sk h) i) = n_entries (hget h i). Proof. now rewrite casts_get. Qed.
  Lemma template_sk h i : n_template (hget (sk h) i) = option_map r (n_template (hget h i)). Proof. now rewrite casts_get. Qed.
  Lemma mirror_sk h i : n_mirror (hget (sk h) i) = n_mirror (hget h i). Proof. now rewrite casts_get. Qed.
  Lemma key_sk h i : key_of (sk h) i = r (key_of h i). Proof. unfold key_of. rewrite casts_get. cbn [cast n_key]. destruct (n_key (hget h i)); [reflexivity|]. symmetry. exact (proj1 Hr). Qed.
  Ltac fields := rewrite ?type_sk, ?copy_sk, ?deep_sk, ?deepcopy_sk, ?elements_sk, ?items_sk, ?entries_sk, ?template_sk, ?mirror_sk, ?key_sk.

  Lemma upd_sk h i f : (forall n, (cast r o) (f n) = f ((cast r o) n)) -> hupd (sk h) i f = sk (hupd h i f).
  Proof. intro H. symmetry. now apply casts_upd. Qed.
  Lemma fold_ext {A B} (f g : A -> B -> A) l : (forall a b, f a b = g a b) -> forall a, fold_left f l a = fold_left g l a.
  Proof. intro H. induction l as [|b l IH]; intro a; cbn; [reflexivity|]. now rewrite H. Qed.
  (** folds of corresponding steps *)
  Lemma fold_hom {A B C} (f : A -> C -> A) (g : B -> C -> B) (m : B -> A) l : (forall b c, f (m b) c = m (g b c)) -> forall b, fold_left f l (m b) = m (fold_left g l b).
  Proof. intro H. induction l as [|c l IH]; intro b; cbn; [reflexivity|]. now rewrite H. Qed.

  Lemma mirror_hom h e t : mirror (sk h) e t = sk (mirror h e t).
  Proof. unfold mirror. fields. destruct (n_mirror (hget h t)); now apply upd_sk. Qed.
  Lemma inherit_hom h e t : inherit_comments (sk h) e t = sk (inherit_comments h e t).
  Proof.
    unfold inherit_comments. rewrite !casts_get. cbn [cast n_comments]. destruct (n_comments (hget h t)), (n_comments (hget h e)); try reflexivity.
    symmetry. now apply casts_upd.
  Qed.
  Lemma consolidate_hom h e t : consolidate_non_section (sk h) e t = rmap (consolidate_non_section h e t).
  Proof.
    unfold consolidate_non_section. rewrite inherit_hom. cbv zeta. set (h1 := inherit_comments h e t). fields.
    destruct (n_type (hget h1 e)); try reflexivity; destruct (n_type (hget h1 t)); cbn [rmap]; try reflexivity;
      try (rewrite upd_sk by reflexivity; rewrite ?mirror_hom; reflexivity).
    all: try (destruct (hd_opt (n_entries (hget h1 e))); reflexivity).
    all: destruct (hd_opt (n_items (hget h1 e))); reflexivity.
  Qed.

  Lemma merge_sections_hom h els : merge_sections (sk h) els = ktab r (merge_sections h els).
  Proof.
    unfold merge_sections. apply (fold_hom _ _ (ktab r)) with (b := []). intros mm e. cbv zeta. fields. rewrite (assoc_ktab r Hr).
    destruct (negb (itype_eqb (n_type (hget h e)) SECTION) || opt_is (assoc (key_of h e) mm))%bool; apply (upd_ktab r Hr).
  Qed.
  Lemma merge_templates_hom h els mm : merge_templates (sk h) els (ktab r mm) = ktab r (merge_templates h els mm).
  Proof.
    unfold merge_templates. apply (fold_hom _ _ (ktab r)) with (b := mm). intros mm' e. cbv zeta. fields. rewrite (assoc_ktab r Hr).
    destruct (assoc (key_of h e) mm') as [[[s t]|]|]; try reflexivity. destruct (negb (itype_eqb (n_type (hget h e)) SECTION) || opt_is t)%bool; apply (upd_ktab r Hr).
  Qed.
  Lemma mergers_ktab mm : mergers (ktab r mm) = mergers mm.
  Proof. unfold mergers, ktab. induction mm as [|[k x] mm IH]; cbn; [reflexivity|]. now rewrite IH. Qed.
  Lemma consolidate_sections_hom f : forall h s t d, consolidate_sections f (sk h) s t d = option_map sk (consolidate_sections f h s t d).
  Proof.
    induction f as [|f IH]; intros h s t d; cbn [consolidate_sections]; [reflexivity|]. rewrite inherit_hom. cbv zeta. set (h1 := inherit_comments h s t). fields.
    destruct (n_elements (hget h1 s)) as [|x els] eqn:E; [cbn; now rewrite mirror_hom|]. rewrite upd_sk by reflexivity. destruct d; cbn [negb]; [|reflexivity].
    fields. rewrite merge_sections_hom, merge_templates_hom, mergers_ktab.
    apply (fold_hom _ _ (option_map sk)) with (b := Some (hupd h1 s (set_extend (Some t)))). intros [h'|] c; cbn [option_map]; [apply IH|reflexivity].
  Qed.

  Lemma template_of_hom h tbl e : template_of (sk h) (ktab r tbl) e = template_of h tbl e.
  Proof. unfold template_of. fields. destruct (n_template (hget h e)); cbn [option_map]; [|reflexivity]. now rewrite (assoc_ktab r Hr). Qed.
  Lemma resolve_non_section_hom f : forall tbl h e prev, resolve_non_section f (ktab r tbl) (sk h) e prev = rmap (resolve_non_section f tbl h e prev).
  Proof.
    induction f as [|f IH]; intros tbl h e prev; cbn [resolve_non_section]; [reflexivity|]. destruct (mem e prev); [reflexivity|]. rewrite template_of_hom.
    destruct (template_of h tbl e) as [t|]; [|reflexivity]. fields. rewrite IH.
    assert ((if n_copy (hget h t) then rmap (resolve_non_section f tbl h t (prev ++ [e])) else ROk (sk h)) = rmap (if n_copy (hget h t) then resolve_non_section f tbl h t (prev ++ [e]) else ROk h)) as -> by now destruct (n_copy (hget h t)).
    destruct (if n_copy (hget h t) then resolve_non_section f tbl h t (prev ++ [e]) else ROk h) as [h1| | |]; cbn [rmap]; try reflexivity.
    rewrite consolidate_hom. destruct (consolidate_non_section h1 e t); cbn [rmap]; try reflexivity. now rewrite upd_sk.
  Qed.
  Lemma resolve_section_hom f : forall tbl h s prev, resolve_section f (ktab r tbl) (sk h) s prev = rmap (resolve_section f tbl h s prev).
  Proof.
    induction f as [|f IH]; intros tbl h s prev; cbn [resolve_section]; [reflexivity|]. destruct (mem s prev); [reflexivity|]. fields.
    match goal with |- match ?x with _ => _ end = rmap (match ?y with _ => _ end) => assert (x = rmap y) as -> end.
    { destruct (n_deep_resolve (hget h s)); [|reflexivity].
      match goal with |- match ?x with _ => _ end = rmap (match ?y with _ => _ end) => assert (x = rmap y) as -> end.
      { apply (fold_hom _ _ rmap) with (b := ROk h). intros [h'|x1 x2| |] e; cbn [rmap]; try reflexivity. fields. rewrite IH.
        destruct (itype_eqb (n_type (hget h' e)) SECTION && (n_copy (hget h' e) || n_deep_resolve (hget h' e)))%bool; reflexivity. }
      destruct (fold_left _ _ _); cbn [rmap]; try reflexivity. now rewrite upd_sk. }
    destruct (if n_deep_resolve (hget h s) then _ else _) as [h1| | |]; cbn [rmap]; try reflexivity. fields. destruct (n_copy (hget h1 s)); [|reflexivity].
    rewrite template_of_hom. destruct (template_of h1 tbl s) as [t|]; [|reflexivity]. fields. rewrite IH.
    match goal with |- match ?x with _ => _ end = rmap (match ?y with _ => _ end) => assert (x = rmap y) as -> by now destruct (n_copy (hget h1 t) || n_deep_resolve (hget h1 t))%bool end.
    destruct (if (n_copy (hget h1 t) || n_deep_resolve (hget h1 t))%bool then _ else _) as [h2| | |]; cbn [rmap]; try reflexivity.
    fields. rewrite casts_length, consolidate_sections_hom. destruct (consolidate_sections (S (length h2)) h2 s t (n_deep_copy (hget h2 s))); cbn [option_map rmap]; [|reflexivity]. now rewrite upd_sk.
  Qed.

  Definition tmap (x : rres copy_table) : rres copy_table := match x with ROk t => ROk (ktab r t) | RErr e h => RErr e (sk h) | RKey => RKey | RFuel => RFuel end.
  Definition tmap2 (x : rres (copy_table * copy_table)) : rres (copy_table * copy_table) :=
    match x with ROk t => ROk (ktab r (fst t), ktab r (snd t)) | RErr e h => RErr e (sk h) | RKey => RKey | RFuel => RFuel end.
  Lemma index_candidate_hom h tbl e : index_candidate (sk h) (ktab r tbl) e = tmap (index_candidate h tbl e).
  Proof.
    unfold index_candidate. cbv zeta. fields. rewrite (assoc_ktab r Hr). destruct (assoc (key_of h e) tbl) as [[tg tp]|]; [|reflexivity].
    replace (match option_map r (n_template (hget h e)) with Some t => text_eqb (r (key_of h e)) t | None => false end)
      with (match n_template (hget h e) with Some t => text_eqb (key_of h e) t | None => false end) by (destruct (n_template (hget h e)); cbn; [now rewrite (eqb_ren r Hr)|reflexivity]).
    destruct (match n_template (hget h e) with Some t => text_eqb (key_of h e) t | None => false end); [reflexivity|]. destruct tp; [reflexivity|]. cbn [tmap]. now rewrite (upd_ktab r Hr).
  Qed.
  Lemma index_hom f : forall h tbls s, index f (sk h) (ktab r (fst tbls), ktab r (snd tbls)) s = tmap2 (index f h tbls s).
  Proof.
    induction f as [|f IH]; intros h tbls s; cbn [index]; [reflexivity|]. fields. apply (fold_hom _ _ tmap2) with (b := ROk tbls). intros [[ts tn]|x1 x2| |] e; cbn [tmap2 fst snd]; try reflexivity.
    fields. destruct (itype_eqb (n_type (hget h e)) SECTION).
    - pose proof (IH h (ts, tn) e) as E. cbn [fst snd] in E. match goal with |- context[index f (sk h) ?p e] => replace (index f (sk h) p e) with (tmap2 (index f h (ts, tn) e)) by (symmetry; exact E) end. destruct (index f h (ts, tn) e) as [[ts' tn']| | |]; cbn [tmap2 fst snd]; try reflexivity. rewrite index_candidate_hom. now destruct (index_candidate h ts' e).
    - rewrite index_candidate_hom. now destruct (index_candidate h tn e).
  Qed.
  Lemma resolve_table_hom nf (r1 r2 : heap -> nat -> rres heap) tbl h : (forall h e, r1 (sk h) e = rmap (r2 h e)) ->
    resolve_table nf r1 (ktab r tbl) (sk h) = rmap (resolve_table nf r2 tbl h).
  Proof.
    intro H. unfold resolve_table. unfold ktab. rewrite fold_map. apply (fold_hom _ _ rmap) with (b := ROk h). intros [h1|x1 x2| |] ent; cbn [rmap]; try reflexivity. cbn [fst snd].
    destruct (snd (snd ent)); [|reflexivity]. apply (fold_hom _ _ rmap) with (b := ROk h1). intros [h2|x1 x2| |] t; cbn [rmap]; try reflexivity. fields. rewrite H. now destruct (n_copy (hget h2 t)).
  Qed.
  Lemma start_ktab l : start_table (ktab r l) = ktab r (start_table l).
  Proof. unfold start_table, ktab. rewrite !map_map. reflexivity. Qed.
  Theorem resolve_hom h cs cn : resolve (sk h) (ktab r cs) (ktab r cn) = rmap (resolve h cs cn).
  Proof.
    unfold resolve. cbv zeta. rewrite casts_length, !start_ktab.
    pose proof (index_hom (S (length h)) h (start_table cs, start_table cn) 0) as E. cbn [fst snd] in E. match goal with |- context[index ?a (sk h) ?p 0] => replace (index a (sk h) p 0) with (tmap2 (index (S (length h)) h (start_table cs, start_table cn) 0)) by (symmetry; exact E) end. clear E.
    destruct (index (S (length h)) h (start_table cs, start_table cn) 0) as [[ts tn]| | |]; cbn [tmap2 rmap fst snd]; try reflexivity.
    assert (resolve_table PNonSectionNotFound (fun h0 e => resolve_non_section (S (length h)) (ktab r tn) h0 e []) (ktab r tn) (sk h) =
      rmap (resolve_table PNonSectionNotFound (fun h0 e => resolve_non_section (S (length h)) tn h0 e []) tn h)) as E0
      by (apply resolve_table_hom; intros; apply resolve_non_section_hom).
    match goal with |- context[resolve_table PNonSectionNotFound ?a ?b (sk h)] => replace (resolve_table PNonSectionNotFound a b (sk h)) with
      (rmap (resolve_table PNonSectionNotFound (fun h0 e => resolve_non_section (S (length h)) tn h0 e []) tn h)) by (symmetry; exact E0) end.
    destruct (resolve_table PNonSectionNotFound (fun h0 e => resolve_non_section (S (length h)) tn h0 e []) tn h) as [h1| | |]; cbn [rmap]; try reflexivity.
    apply resolve_table_hom. intros. apply resolve_section_hom.
  Qed.

(** * The analysis *)

Definition cast_ast (st : ast) : ast :=
  MkA ((casts r o) (a_heap st)) (a_meta st) (a_index st) (a_line st) (a_depth st) (a_comments st) (a_lce st) (a_lnse st) (a_lsec st) (ktab r (a_cs st)) (ktab r (a_cn st)).
Definition cast_out (x : ast + perr) : ast + perr := match x with inl a => inl (cast_ast a) | inr e => inr e end.

Lemma casts_add_element h n s id : (casts r o) (add_element (h ++ [n]) s id) = add_element ((casts r o) h ++ [cast r o n]) s id.
Proof. unfold add_element. rewrite <- casts_app. apply casts_upd. reflexivity. Qed.
Lemma casts_cont h e c : (casts r o) (add_continuation h e c) = add_continuation ((casts r o) h) e (cast_leaf o c).
Proof.
  unfold add_continuation. apply casts_upd. intro n. cbn [cast n_conts n_type]. destruct (n_conts n) as [cs|] eqn:E; cbn [option_map]; [unfold cast, set_conts; cbn; f_equal; now rewrite map_app|]. destruct (itype_eqb (n_type n) EMPTY_ELEMENT); reflexivity.
Qed.
Lemma casts_items h n l id : (casts r o) (hupd (h ++ [n]) l (add_item id)) = hupd ((casts r o) h ++ [cast r o n]) l (add_item id).
Proof. rewrite <- casts_app. apply casts_upd. intro x. unfold add_item. cbn [n_type cast]. now destruct (n_type x). Qed.
Lemma casts_entries h n l id : (casts r o) (hupd (h ++ [n]) l (add_entry id)) = hupd ((casts r o) h ++ [cast r o n]) l (add_entry id).
Proof. rewrite <- casts_app. apply casts_upd. intro x. unfold add_entry. cbn [n_type cast]. now destruct (n_type x). Qed.
Lemma climb_casts h n : forall s, climb ((casts r o) h) n s = climb h n s.
Proof. induction n as [|n IH]; intro s; cbn [climb]; [reflexivity|]. rewrite casts_get. cbn [cast n_parent]. destruct (n_parent (hget h s)); [apply IH|reflexivity]. Qed.
Lemma section_parent_casts st d : section_parent (cast_ast st) d = section_parent st d.
Proof.
  unfold section_parent. cbn [cast_ast a_heap a_depth a_lsec]. rewrite climb_casts, !casts_get. cbn [cast n_parent].
  destruct (Nat.eqb d (a_depth st + 1)); [reflexivity|]. destruct (Nat.eqb d (a_depth st)); [reflexivity|]. destruct (Nat.ltb d (a_depth st)); [|reflexivity].
  destruct (climb (a_heap st) (a_depth st - d) (a_lsec st)); [|reflexivity]. now rewrite casts_get.
Qed.
Lemma mark_deep_casts f : forall h p, mark_deep f ((casts r o) h) p = option_map (casts r o) (mark_deep f h p).
Proof.
  induction f as [|f IH]; intros h p; cbn [mark_deep option_map]; [reflexivity|]. rewrite casts_get. cbn [cast n_type n_parent].
  destruct (itype_eqb (n_type (hget h p)) DOCUMENT); [reflexivity|]. destruct (n_parent (hget h p)) as [q|]; [|reflexivity].
  rewrite <- IH. f_equal. symmetry. apply casts_upd. reflexivity.
Qed.

Lemma target_casts t id l : add_target (r t) id (ktab r l) = ktab r (add_target t id l).
Proof. apply (upd_ktab r Hr). Qed.
Lemma astep_cast st x : astep (cast_ast st) (said_as r o x) = cast_out (astep st x).
Proof.
  destruct x as [|c t|s v|v|k v|k v|k v|k t|d k t]; cbn [said_as astep]; cbv zeta; rewrite ?section_parent_casts; cbn [cast_ast a_heap a_depth a_comments a_lce a_lnse a_lsec a_cs a_cn];
    rewrite ?casts_length; unfold cast_out, cast_ast; cbn [a_heap a_depth a_comments a_lce a_lnse a_lsec a_cs a_cn a_meta a_index a_line].
  - reflexivity.
  - reflexivity.
  - destruct (a_lce st); [|reflexivity]. cbn [a_heap a_depth a_comments a_lce a_lnse a_lsec a_cs a_cn a_meta a_index a_line]. now rewrite casts_cont.
  - destruct (a_lnse st) as [l|]; [|reflexivity]. rewrite casts_get. cbn [cast n_type]. destruct (takes_items (n_type (hget (a_heap st) l))); [|reflexivity].
    cbn [a_heap a_depth a_comments a_lce a_lnse a_lsec a_cs a_cn a_meta a_index a_line]. now rewrite casts_items.
  - destruct (a_lnse st) as [l|]; [|reflexivity]. rewrite casts_get. cbn [cast n_type]. destruct (takes_entries (n_type (hget (a_heap st) l))); [|reflexivity].
    cbn [a_heap a_depth a_comments a_lce a_lnse a_lsec a_cs a_cn a_meta a_index a_line]. now rewrite casts_entries.
  - rewrite casts_add_element. destruct v; reflexivity.
  - do 2 f_equal. erewrite casts_upd with (g := set_lines (option_map (fun t => [text_leaf t]) (option_map o v))); [now rewrite casts_add_element|]. intro n. unfold cast, set_lines. cbn. f_equal. destruct v; reflexivity.
  - rewrite target_casts, casts_add_element. reflexivity.
  - destruct (section_parent st d) as [[p|]|]; try reflexivity. destruct t as [[b ts]|]; cbn [option_map fst snd opt_is].
    + match goal with |- context [mark_deep _ (add_element (casts r o (a_heap st) ++ [?n]) _ _) _] =>
        match goal with |- context [mark_deep _ (add_element (a_heap st ++ [?m]) _ _) _] => change n with (cast r o m) end end.
      rewrite <- casts_add_element, mark_deep_casts. destruct (mark_deep _ _ p); cbn [option_map]; [|reflexivity].
      cbn [a_heap a_depth a_comments a_lce a_lnse a_lsec a_cs a_cn a_meta a_index a_line]. now rewrite target_casts.
    + cbn [a_heap a_depth a_comments a_lce a_lnse a_lsec a_cs a_cn a_meta a_index a_line]. now rewrite casts_add_element.
Qed.
Lemma nrun_cast l : forall st, nrun (cast_ast st) (told_as r o l) = cast_out (nrun st l).
Proof.
  induction l as [|[p x] l IH]; intro st; [reflexivity|]. unfold told_as in *. cbn [nrun map fst snd].
  change (with_c (pc p) (cast_ast st)) with (cast_ast (with_c (pc p) st)). rewrite astep_cast. destruct (astep (with_c (pc p) st) x) as [a|e]; cbn [cast_out]; [apply IH|reflexivity].
Qed.
End Res.
