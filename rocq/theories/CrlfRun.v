(** CrlfRun: the analysis and the copies do not look at the texts of multiline values (lemmas for C59). *)
From Verif Require Import Base Types Analyzer TokenStep Resolver SpecSaid SpecEndings SaidRun SaidLoop.

Definition bare_said (x : said) : said := match x with SaysMultiline k v => SaysMultiline k (option_map strip v) | _ => x end.
Lemma strip_returns v : strip (crlf v ++ [cr]) = strip v.
Proof.
  unfold strip. rewrite filter_app. cbn [filter]. change (N.eqb cr cr) with true. cbn [negb]. rewrite app_nil_r.
  induction v as [|c v IH]; [reflexivity|]. cbn [crlf]. destruct (N.eqb_spec c nl) as [->|]; cbn [filter]; [change (N.eqb cr cr) with true; cbn [negb]|]; now rewrite IH.
Qed.
Lemma bare_returns x : bare_said (with_returns x) = bare_said x.
Proof. destruct x as [| | | | | |k [v|]| |]; try reflexivity. cbn. now rewrite strip_returns. Qed.

Definition bare_leaf (l : leaf) : leaf := MkLeaf (l_type l) (l_line l) (l_ranges l) (option_map strip (l_text l)) (l_spaced l).
Definition bare (n : node) : node :=
  MkNode (n_type n) (n_line n) (n_ranges n) (n_key n) (n_value n) (n_comments n) (n_parent n) (n_elements n) (n_items n) (n_entries n)
    (n_conts n) (option_map (map bare_leaf) (n_lines n)) (n_end n) (n_template n) (n_deep_copy n) (n_deep_resolve n) (n_copy n) (n_mirror n) (n_extend n)
    (option_map (option_map strip) (n_cvalue n)) (n_ccomment n) (n_cels n) (n_centries n) (n_citems n).
Definition bares (h : heap) : heap := map bare h.
Lemma bares_get h i : hget (bares h) i = bare (hget h i).
Proof. unfold hget, bares. change document_node with (bare document_node) at 1. apply map_nth. Qed.
Lemma bares_upd h i f g : (forall n, bare (f n) = g (bare n)) -> bares (hupd h i f) = hupd (bares h) i g.
Proof. intro H. unfold hupd, bares. revert i. induction h as [|x h IH]; intros [|i]; cbn; try reflexivity; [now rewrite H|now rewrite IH]. Qed.
Lemma bares_app h n : bares (h ++ [n]) = bares h ++ [bare n]. Proof. apply map_app. Qed.
Lemma bares_length h : length (bares h) = length h. Proof. apply map_length. Qed.

Section Res.
  Local Notation sk := bares.

  Definition rmap (r : rres heap) : rres heap :=
    match r with ROk h => ROk (sk h) | RErr e h => RErr e (sk h) | RKey => RKey | RFuel => RFuel end.
  Definition emap {A} (r : rres A) : rres A :=
    match r with RErr e h => RErr e (sk h) | x => x end.

  Lemma type_sk h i : n_type (hget (sk h) i) = n_type (hget h i). Proof. now rewrite bares_get. Qed.
  Lemma copy_sk h i : n_copy (hget (sk h) i) = n_copy (hget h i). Proof. now rewrite bares_get. Qed.
  Lemma deep_sk h i : n_deep_resolve (hget (sk h) i) = n_deep_resolve (hget h i). Proof. now rewrite bares_get. Qed.
  Lemma deepcopy_sk h i : n_deep_copy (hget (sk h) i) = n_deep_copy (hget h i). Proof. now rewrite bares_get. Qed.
  Lemma elements_sk h i : n_elements (hget (sk h) i) = n_elements (hget h i). Proof. now rewrite bares_get. Qed.
  Lemma items_sk h i : n_items (hget (sk h) i) = n_items (hget h i). Proof. now rewrite bares_get. Qed.
  Lemma entries_sk h i : n_entries (hget (sk h) i) = n_entries (hget h i). Proof. now rewrite bares_get. Qed.
  Lemma template_sk h i : n_template (hget (sk h) i) = n_template (hget h i). Proof. now rewrite bares_get. Qed.
  Lemma mirror_sk h i : n_mirror (hget (sk h) i) = n_mirror (hget h i). Proof. now rewrite bares_get. Qed.
  Lemma key_sk h i : key_of (sk h) i = key_of h i. Proof. unfold key_of. now rewrite bares_get. Qed.
  Ltac fields := rewrite ?type_sk, ?copy_sk, ?deep_sk, ?deepcopy_sk, ?elements_sk, ?items_sk, ?entries_sk, ?template_sk, ?mirror_sk, ?key_sk.

  Lemma upd_sk h i f : (forall n, bare (f n) = f (bare n)) -> hupd (sk h) i f = sk (hupd h i f).
  Proof. intro H. symmetry. now apply bares_upd. Qed.
  Lemma fold_ext {A B} (f g : A -> B -> A) l : (forall a b, f a b = g a b) -> forall a, fold_left f l a = fold_left g l a.
  Proof. intro H. induction l as [|b l IH]; intro a; cbn; [reflexivity|]. now rewrite H. Qed.
  (** folds of corresponding steps *)
  Lemma fold_hom {A B C} (f : A -> C -> A) (g : B -> C -> B) (m : B -> A) l : (forall b c, f (m b) c = m (g b c)) -> forall b, fold_left f l (m b) = m (fold_left g l b).
  Proof. intro H. induction l as [|c l IH]; intro b; cbn; [reflexivity|]. now rewrite H. Qed.

  Lemma mirror_hom h e t : mirror (sk h) e t = sk (mirror h e t).
  Proof. unfold mirror. fields. destruct (n_mirror (hget h t)); now apply upd_sk. Qed.
  Lemma inherit_hom h e t : inherit_comments (sk h) e t = sk (inherit_comments h e t).
  Proof.
    unfold inherit_comments. rewrite !bares_get. cbn [bare n_comments]. destruct (n_comments (hget h t)), (n_comments (hget h e)); try reflexivity.
    symmetry. now apply bares_upd.
  Qed.
  Lemma consolidate_hom h e t : consolidate_non_section (sk h) e t = rmap (consolidate_non_section h e t).
  Proof.
    unfold consolidate_non_section. rewrite inherit_hom. cbv zeta. set (h1 := inherit_comments h e t). fields.
    destruct (n_type (hget h1 e)); try reflexivity; destruct (n_type (hget h1 t)); cbn [rmap]; try reflexivity;
      try (rewrite upd_sk by reflexivity; rewrite ?mirror_hom; reflexivity).
    all: try (destruct (hd_opt (n_entries (hget h1 e))); reflexivity).
    all: destruct (hd_opt (n_items (hget h1 e))); reflexivity.
  Qed.

  Lemma merge_sections_hom h els : merge_sections (sk h) els = merge_sections h els.
  Proof. unfold merge_sections. apply fold_ext. intros mm e. cbv zeta. fields. reflexivity. Qed.
  Lemma merge_templates_hom h els mm : merge_templates (sk h) els mm = merge_templates h els mm.
  Proof. unfold merge_templates. apply fold_ext. intros mm' e. cbv zeta. fields. reflexivity. Qed.
  Lemma consolidate_sections_hom f : forall h s t d, consolidate_sections f (sk h) s t d = option_map sk (consolidate_sections f h s t d).
  Proof.
    induction f as [|f IH]; intros h s t d; cbn [consolidate_sections]; [reflexivity|]. rewrite inherit_hom. cbv zeta. set (h1 := inherit_comments h s t). fields.
    destruct (n_elements (hget h1 s)) as [|x els] eqn:E; [cbn; now rewrite mirror_hom|]. rewrite upd_sk by reflexivity. destruct d; cbn [negb]; [|reflexivity].
    fields. rewrite merge_sections_hom, merge_templates_hom.
    apply (fold_hom _ _ (option_map sk)) with (b := Some (hupd h1 s (set_extend (Some t)))). intros [h'|] c; cbn [option_map]; [apply IH|reflexivity].
  Qed.

  Lemma template_of_hom h tbl e : template_of (sk h) tbl e = template_of h tbl e.
  Proof. unfold template_of. now fields. Qed.
  Lemma resolve_non_section_hom f : forall tbl h e prev, resolve_non_section f tbl (sk h) e prev = rmap (resolve_non_section f tbl h e prev).
  Proof.
    induction f as [|f IH]; intros tbl h e prev; cbn [resolve_non_section]; [reflexivity|]. destruct (mem e prev); [reflexivity|]. rewrite template_of_hom.
    destruct (template_of h tbl e) as [t|]; [|reflexivity]. fields. rewrite IH.
    assert ((if n_copy (hget h t) then rmap (resolve_non_section f tbl h t (prev ++ [e])) else ROk (sk h)) = rmap (if n_copy (hget h t) then resolve_non_section f tbl h t (prev ++ [e]) else ROk h)) as -> by now destruct (n_copy (hget h t)).
    destruct (if n_copy (hget h t) then resolve_non_section f tbl h t (prev ++ [e]) else ROk h) as [h1| | |]; cbn [rmap]; try reflexivity.
    rewrite consolidate_hom. destruct (consolidate_non_section h1 e t); cbn [rmap]; try reflexivity. now rewrite upd_sk.
  Qed.
  Lemma resolve_section_hom f : forall tbl h s prev, resolve_section f tbl (sk h) s prev = rmap (resolve_section f tbl h s prev).
  Proof.
    induction f as [|f IH]; intros tbl h s prev; cbn [resolve_section]; [reflexivity|]. destruct (mem s prev); [reflexivity|]. fields.
    match goal with |- match ?x with _ => _ end = rmap (match ?y with _ => _ end) => assert (x = rmap y) as -> end.
    { destruct (n_deep_resolve (hget h s)); [|reflexivity].
      match goal with |- match ?x with _ => _ end = rmap (match ?y with _ => _ end) => assert (x = rmap y) as -> end.
      { apply (fold_hom _ _ rmap) with (b := ROk h). intros [h'|x1 x2| |] e; cbn [rmap]; try reflexivity. fields. rewrite IH.
        destruct (itype_eqb (n_type (hget h' e)) SECTION && (n_copy (hget h' e) || n_deep_resolve (hget h' e)))%bool; reflexivity. }
      destruct (fold_left _ _ _); cbn [rmap]; try reflexivity. now rewrite upd_sk. }
    destruct (if n_deep_resolve (hget h s) then _ else _) as [h1| | |]; cbn [rmap]; try reflexivity. fields. destruct (n_copy (hget h1 s)); [|reflexivity].
    rewrite template_of_hom. destruct (template_of h1 tbl s) as [t|]; [|reflexivity]. fields. rewrite IH.
    match goal with |- match ?x with _ => _ end = rmap (match ?y with _ => _ end) => assert (x = rmap y) as -> by now destruct (n_copy (hget h1 t) || n_deep_resolve (hget h1 t))%bool end.
    destruct (if (n_copy (hget h1 t) || n_deep_resolve (hget h1 t))%bool then _ else _) as [h2| | |]; cbn [rmap]; try reflexivity.
    fields. rewrite bares_length, consolidate_sections_hom. destruct (consolidate_sections (S (length h2)) h2 s t (n_deep_copy (hget h2 s))); cbn [option_map rmap]; [|reflexivity]. now rewrite upd_sk.
  Qed.

  Lemma index_candidate_hom h tbl e : index_candidate (sk h) tbl e = emap (index_candidate h tbl e).
  Proof.
    unfold index_candidate. cbv zeta. fields. destruct (assoc (key_of h e) tbl) as [[tg tp]|]; [|reflexivity].
    destruct (match n_template (hget h e) with Some t => text_eqb (key_of h e) t | None => false end); [reflexivity|]. now destruct tp.
  Qed.
  Lemma index_hom f : forall h tbls s, index f (sk h) tbls s = emap (index f h tbls s).
  Proof.
    induction f as [|f IH]; intros h tbls s; cbn [index]; [reflexivity|]. fields. apply (fold_hom _ _ emap) with (b := ROk tbls). intros [[ts tn]|x1 x2| |] e; cbn [emap]; try reflexivity.
    fields. destruct (itype_eqb (n_type (hget h e)) SECTION).
    - rewrite IH. destruct (index f h (ts, tn) e) as [[ts' tn']| | |]; cbn [emap]; try reflexivity. rewrite index_candidate_hom. now destruct (index_candidate h ts' e).
    - rewrite index_candidate_hom. now destruct (index_candidate h tn e).
  Qed.
  Lemma resolve_table_hom nf (r : heap -> nat -> rres heap) tbl h : (forall h e, r (sk h) e = rmap (r h e)) ->
    resolve_table nf r tbl (sk h) = rmap (resolve_table nf r tbl h).
  Proof.
    intro H. unfold resolve_table. apply (fold_hom _ _ rmap) with (b := ROk h). intros [h1|x1 x2| |] ent; cbn [rmap]; try reflexivity.
    destruct (snd (snd ent)); [|reflexivity]. apply (fold_hom _ _ rmap) with (b := ROk h1). intros [h2|x1 x2| |] t; cbn [rmap]; try reflexivity. fields. rewrite H. now destruct (n_copy (hget h2 t)).
  Qed.
  Theorem resolve_hom h cs cn : resolve (sk h) cs cn = rmap (resolve h cs cn).
  Proof.
    unfold resolve. cbv zeta. rewrite bares_length, index_hom. destruct (index (S (length h)) h (start_table cs, start_table cn) 0) as [[ts tn]| | |]; cbn [emap rmap]; try reflexivity.
    rewrite resolve_table_hom by (intros; apply resolve_non_section_hom).
    destruct (resolve_table PNonSectionNotFound (fun h e => resolve_non_section (S (length h)) tn h e []) tn h) as [h1| | |] eqn:E; cbn [rmap].
    all: match goal with |- match rmap ?x with _ => _ end = _ => destruct x; cbn [rmap]; try reflexivity end.
    all: apply resolve_table_hom; intros; apply resolve_section_hom.
  Qed.
End Res.

(** * The analysis *)

Definition bare_ast (st : ast) : ast :=
  MkA (bares (a_heap st)) (a_meta st) (a_index st) (a_line st) (a_depth st) (a_comments st) (a_lce st) (a_lnse st) (a_lsec st) (a_cs st) (a_cn st).
Definition bare_out (r : ast + perr) : ast + perr := match r with inl a => inl (bare_ast a) | inr e => inr e end.

Lemma bares_add_element h n s id : bares (add_element (h ++ [n]) s id) = add_element (bares h ++ [bare n]) s id.
Proof. unfold add_element. rewrite <- bares_app. apply bares_upd. reflexivity. Qed.
Lemma bares_cont h e c : bares (add_continuation h e c) = add_continuation (bares h) e c.
Proof.
  unfold add_continuation. apply bares_upd. intro n. cbn [bare n_conts n_type]. destruct (n_conts n) as [cs|] eqn:E; [reflexivity|]. destruct (itype_eqb (n_type n) EMPTY_ELEMENT); reflexivity.
Qed.
Lemma bares_items h n l id : bares (hupd (h ++ [n]) l (add_item id)) = hupd (bares h ++ [bare n]) l (add_item id).
Proof. rewrite <- bares_app. apply bares_upd. intro x. unfold add_item. cbn [n_type bare]. now destruct (n_type x). Qed.
Lemma bares_entries h n l id : bares (hupd (h ++ [n]) l (add_entry id)) = hupd (bares h ++ [bare n]) l (add_entry id).
Proof. rewrite <- bares_app. apply bares_upd. intro x. unfold add_entry. cbn [n_type bare]. now destruct (n_type x). Qed.
Lemma climb_bares h n : forall s, climb (bares h) n s = climb h n s.
Proof. induction n as [|n IH]; intro s; cbn [climb]; [reflexivity|]. rewrite bares_get. cbn [bare n_parent]. destruct (n_parent (hget h s)); [apply IH|reflexivity]. Qed.
Lemma section_parent_bares st d : section_parent (bare_ast st) d = section_parent st d.
Proof.
  unfold section_parent. cbn [bare_ast a_heap a_depth a_lsec]. rewrite climb_bares, !bares_get. cbn [bare n_parent].
  destruct (Nat.eqb d (a_depth st + 1)); [reflexivity|]. destruct (Nat.eqb d (a_depth st)); [reflexivity|]. destruct (Nat.ltb d (a_depth st)); [|reflexivity].
  destruct (climb (a_heap st) (a_depth st - d) (a_lsec st)); [|reflexivity]. now rewrite bares_get.
Qed.
Lemma mark_deep_bares f : forall h p, mark_deep f (bares h) p = option_map bares (mark_deep f h p).
Proof.
  induction f as [|f IH]; intros h p; cbn [mark_deep option_map]; [reflexivity|]. rewrite bares_get. cbn [bare n_type n_parent].
  destruct (itype_eqb (n_type (hget h p)) DOCUMENT); [reflexivity|]. destruct (n_parent (hget h p)) as [q|]; [|reflexivity].
  rewrite <- IH. f_equal. symmetry. apply bares_upd. reflexivity.
Qed.

Lemma astep_bare st x : astep (bare_ast st) (bare_said x) = bare_out (astep st x).
Proof.
  destruct x as [|c t|s v|v|k v|k v|k v|k t|d k t]; cbn [bare_said astep]; cbv zeta; rewrite ?section_parent_bares; cbn [bare_ast a_heap a_depth a_comments a_lce a_lnse a_lsec a_cs a_cn];
    rewrite ?bares_length; unfold bare_out, bare_ast; cbn [a_heap a_depth a_comments a_lce a_lnse a_lsec a_cs a_cn a_meta a_index a_line].
  - reflexivity.
  - reflexivity.
  - destruct (a_lce st); [|reflexivity]. cbn [a_heap a_depth a_comments a_lce a_lnse a_lsec a_cs a_cn a_meta a_index a_line]. now rewrite bares_cont.
  - destruct (a_lnse st) as [l|]; [|reflexivity]. rewrite bares_get. cbn [bare n_type]. destruct (takes_items (n_type (hget (a_heap st) l))); [|reflexivity].
    cbn [a_heap a_depth a_comments a_lce a_lnse a_lsec a_cs a_cn a_meta a_index a_line]. now rewrite bares_items.
  - destruct (a_lnse st) as [l|]; [|reflexivity]. rewrite bares_get. cbn [bare n_type]. destruct (takes_entries (n_type (hget (a_heap st) l))); [|reflexivity].
    cbn [a_heap a_depth a_comments a_lce a_lnse a_lsec a_cs a_cn a_meta a_index a_line]. now rewrite bares_entries.
  - now rewrite bares_add_element.
  - do 2 f_equal. rewrite <- bares_add_element with (n := set_comments (option_map lev (a_comments st)) (set_key (Some k) (set_parent (Some (a_lsec st)) (new_node MULTILINE_FIELD_BEGIN 0 [])))).
    symmetry. apply bares_upd. intro n. unfold bare, set_lines. cbn. f_equal. destruct v; reflexivity.
  - now rewrite bares_add_element.
  - destruct (section_parent st d) as [[p|]|]; try reflexivity.
    assert (forall n, bare n = n -> add_element (bares (a_heap st) ++ [n]) p (length (a_heap st)) = bares (add_element (a_heap st ++ [n]) p (length (a_heap st)))) as K
      by (intros n E; now rewrite bares_add_element, E).
    rewrite K by reflexivity. destruct t as [[b ts]|]; [|reflexivity]. rewrite mark_deep_bares.
    destruct (mark_deep _ _ p); reflexivity.
Qed.
Lemma arun_bare l : forall st, arun (bare_ast st) (map bare_said l) = bare_out (arun st l).
Proof.
  induction l as [|x l IH]; intro st; cbn [arun map]; [reflexivity|]. rewrite astep_bare. destruct (astep st x) as [a|e]; cbn [bare_out]; [apply IH|reflexivity].
Qed.
Lemma arun_returns l : bare_out (arun init_ast (map with_returns l)) = bare_out (arun init_ast l).
Proof.
  rewrite <- !arun_bare, map_map. f_equal. apply map_ext. apply bare_returns.
Qed.
