(** SaidResolve: resolving copies does not look at positions (lemmas for C57). *)
From Verif Require Import Base Types Analyzer Resolver SaidRun.

Section Res.
  Context (inp : text).
  Local Notation sk := (skins inp).

  Definition rmap (r : rres heap) : rres heap :=
    match r with ROk h => ROk (sk h) | RErr e h => RErr e (sk h) | RKey => RKey | RFuel => RFuel end.
  Definition emap {A} (r : rres A) : rres A :=
    match r with RErr e h => RErr e (sk h) | x => x end.

  Lemma type_sk h i : n_type (hget (sk h) i) = n_type (hget h i). Proof. now rewrite skins_get. Qed.
  Lemma copy_sk h i : n_copy (hget (sk h) i) = n_copy (hget h i). Proof. now rewrite skins_get. Qed.
  Lemma deep_sk h i : n_deep_resolve (hget (sk h) i) = n_deep_resolve (hget h i). Proof. now rewrite skins_get. Qed.
  Lemma deepcopy_sk h i : n_deep_copy (hget (sk h) i) = n_deep_copy (hget h i). Proof. now rewrite skins_get. Qed.
  Lemma elements_sk h i : n_elements (hget (sk h) i) = n_elements (hget h i). Proof. now rewrite skins_get. Qed.
  Lemma items_sk h i : n_items (hget (sk h) i) = n_items (hget h i). Proof. now rewrite skins_get. Qed.
  Lemma entries_sk h i : n_entries (hget (sk h) i) = n_entries (hget h i). Proof. now rewrite skins_get. Qed.
  Lemma template_sk h i : n_template (hget (sk h) i) = n_template (hget h i). Proof. now rewrite skins_get. Qed.
  Lemma mirror_sk h i : n_mirror (hget (sk h) i) = n_mirror (hget h i). Proof. now rewrite skins_get. Qed.
  Lemma key_sk h i : key_of (sk h) i = key_of h i. Proof. unfold key_of. now rewrite skins_get. Qed.
  Ltac fields := rewrite ?type_sk, ?copy_sk, ?deep_sk, ?deepcopy_sk, ?elements_sk, ?items_sk, ?entries_sk, ?template_sk, ?mirror_sk, ?key_sk.

  Lemma upd_sk h i f : (forall n, skin inp (f n) = f (skin inp n)) -> hupd (sk h) i f = sk (hupd h i f).
  Proof. intro H. symmetry. now apply skins_upd. Qed.
  Lemma fold_ext {A B} (f g : A -> B -> A) l : (forall a b, f a b = g a b) -> forall a, fold_left f l a = fold_left g l a.
  Proof. intro H. induction l as [|b l IH]; intro a; cbn; [reflexivity|]. now rewrite H. Qed.
  (** folds of corresponding steps *)
  Lemma fold_hom {A B C} (f : A -> C -> A) (g : B -> C -> B) (m : B -> A) l : (forall b c, f (m b) c = m (g b c)) -> forall b, fold_left f l (m b) = m (fold_left g l b).
  Proof. intro H. induction l as [|c l IH]; intro b; cbn; [reflexivity|]. now rewrite H. Qed.

  Lemma mirror_hom h e t : mirror (sk h) e t = sk (mirror h e t).
  Proof. unfold mirror. fields. destruct (n_mirror (hget h t)); now apply upd_sk. Qed.
  Lemma inherit_hom h e t : inherit_comments (sk h) e t = sk (inherit_comments h e t).
  Proof.
    unfold inherit_comments. rewrite !skins_get. cbn [skin n_comments]. destruct (n_comments (hget h t)), (n_comments (hget h e)); cbn [option_map]; try reflexivity.
    symmetry. now apply skins_upd.
  Qed.
  Lemma consolidate_hom h e t : consolidate_non_section (sk h) e t = rmap (consolidate_non_section h e t).
  Proof.
    unfold consolidate_non_section. rewrite inherit_hom. cbv zeta. set (h1 := inherit_comments h e t). fields.
    destruct (n_type (hget h1 e)); try reflexivity; destruct (n_type (hget h1 t)); cbn [rmap]; try reflexivity;
      try (rewrite upd_sk by reflexivity; rewrite ?mirror_hom; reflexivity).
    all: try (destruct (hd_opt (n_entries (hget h1 e))); reflexivity).
    all: destruct (hd_opt (n_items (hget h1 e))); reflexivity.
  Qed.

  Lemma merge_sections_hom h els : merge_sections (sk h) els = merge_sections h els.
  Proof. unfold merge_sections. apply fold_ext. intros mm e. cbv zeta. fields. reflexivity. Qed.
  Lemma merge_templates_hom h els mm : merge_templates (sk h) els mm = merge_templates h els mm.
  Proof. unfold merge_templates. apply fold_ext. intros mm' e. cbv zeta. fields. reflexivity. Qed.
  Lemma consolidate_sections_hom f : forall h s t d, consolidate_sections f (sk h) s t d = option_map sk (consolidate_sections f h s t d).
  Proof.
    induction f as [|f IH]; intros h s t d; cbn [consolidate_sections]; [reflexivity|]. rewrite inherit_hom. cbv zeta. set (h1 := inherit_comments h s t). fields.
    destruct (n_elements (hget h1 s)) as [|x els] eqn:E; [cbn; now rewrite mirror_hom|]. rewrite upd_sk by reflexivity. destruct d; cbn [negb]; [|reflexivity].
    fields. rewrite merge_sections_hom, merge_templates_hom.
    apply (fold_hom _ _ (option_map sk)) with (b := Some (hupd h1 s (set_extend (Some t)))). intros [h'|] c; cbn [option_map]; [apply IH|reflexivity].
  Qed.

  Lemma template_of_hom h tbl e : template_of (sk h) tbl e = template_of h tbl e.
  Proof. unfold template_of. now fields. Qed.
  Lemma resolve_non_section_hom f : forall tbl h e prev, resolve_non_section f tbl (sk h) e prev = rmap (resolve_non_section f tbl h e prev).
  Proof.
    induction f as [|f IH]; intros tbl h e prev; cbn [resolve_non_section]; [reflexivity|]. destruct (mem e prev); [reflexivity|]. rewrite template_of_hom.
    destruct (template_of h tbl e) as [t|]; [|reflexivity]. fields. rewrite IH.
    assert ((if n_copy (hget h t) then rmap (resolve_non_section f tbl h t (prev ++ [e])) else ROk (sk h)) = rmap (if n_copy (hget h t) then resolve_non_section f tbl h t (prev ++ [e]) else ROk h)) as -> by now destruct (n_copy (hget h t)).
    destruct (if n_copy (hget h t) then resolve_non_section f tbl h t (prev ++ [e]) else ROk h) as [h1| | |]; cbn [rmap]; try reflexivity.
    rewrite consolidate_hom. destruct (consolidate_non_section h1 e t); cbn [rmap]; try reflexivity. now rewrite upd_sk.
  Qed.
  Lemma resolve_section_hom f : forall tbl h s prev, resolve_section f tbl (sk h) s prev = rmap (resolve_section f tbl h s prev).
  Proof.
    induction f as [|f IH]; intros tbl h s prev; cbn [resolve_section]; [reflexivity|]. destruct (mem s prev); [reflexivity|]. fields.
    match goal with |- match ?x with _ => _ end = rmap (match ?y with _ => _ end) => assert (x = rmap y) as -> end.
    { destruct (n_deep_resolve (hget h s)); [|reflexivity].
      match goal with |- match ?x with _ => _ end = rmap (match ?y with _ => _ end) => assert (x = rmap y) as -> end.
      { apply (fold_hom _ _ rmap) with (b := ROk h). intros [h'|x1 x2| |] e; cbn [rmap]; try reflexivity. fields. rewrite IH.
        destruct (itype_eqb (n_type (hget h' e)) SECTION && (n_copy (hget h' e) || n_deep_resolve (hget h' e)))%bool; reflexivity. }
      destruct (fold_left _ _ _); cbn [rmap]; try reflexivity. now rewrite upd_sk. }
    destruct (if n_deep_resolve (hget h s) then _ else _) as [h1| | |]; cbn [rmap]; try reflexivity. fields. destruct (n_copy (hget h1 s)); [|reflexivity].
    rewrite template_of_hom. destruct (template_of h1 tbl s) as [t|]; [|reflexivity]. fields. rewrite IH.
    match goal with |- match ?x with _ => _ end = rmap (match ?y with _ => _ end) => assert (x = rmap y) as -> by now destruct (n_copy (hget h1 t) || n_deep_resolve (hget h1 t))%bool end.
    destruct (if (n_copy (hget h1 t) || n_deep_resolve (hget h1 t))%bool then _ else _) as [h2| | |]; cbn [rmap]; try reflexivity.
    fields. rewrite skins_length, consolidate_sections_hom. destruct (consolidate_sections (S (length h2)) h2 s t (n_deep_copy (hget h2 s))); cbn [option_map rmap]; [|reflexivity]. now rewrite upd_sk.
  Qed.

  Lemma index_candidate_hom h tbl e : index_candidate (sk h) tbl e = emap (index_candidate h tbl e).
  Proof.
    unfold index_candidate. cbv zeta. fields. destruct (assoc (key_of h e) tbl) as [[tg tp]|]; [|reflexivity].
    destruct (match n_template (hget h e) with Some t => text_eqb (key_of h e) t | None => false end); [reflexivity|]. now destruct tp.
  Qed.
  Lemma index_hom f : forall h tbls s, index f (sk h) tbls s = emap (index f h tbls s).
  Proof.
    induction f as [|f IH]; intros h tbls s; cbn [index]; [reflexivity|]. fields. apply (fold_hom _ _ emap) with (b := ROk tbls). intros [[ts tn]|x1 x2| |] e; cbn [emap]; try reflexivity.
    fields. destruct (itype_eqb (n_type (hget h e)) SECTION).
    - rewrite IH. destruct (index f h (ts, tn) e) as [[ts' tn']| | |]; cbn [emap]; try reflexivity. rewrite index_candidate_hom. now destruct (index_candidate h ts' e).
    - rewrite index_candidate_hom. now destruct (index_candidate h tn e).
  Qed.
  Lemma resolve_table_hom nf (r : heap -> nat -> rres heap) tbl h : (forall h e, r (sk h) e = rmap (r h e)) ->
    resolve_table nf r tbl (sk h) = rmap (resolve_table nf r tbl h).
  Proof.
    intro H. unfold resolve_table. apply (fold_hom _ _ rmap) with (b := ROk h). intros [h1|x1 x2| |] ent; cbn [rmap]; try reflexivity.
    destruct (snd (snd ent)); [|reflexivity]. apply (fold_hom _ _ rmap) with (b := ROk h1). intros [h2|x1 x2| |] t; cbn [rmap]; try reflexivity. fields. rewrite H. now destruct (n_copy (hget h2 t)).
  Qed.
  Theorem resolve_hom h cs cn : resolve (sk h) cs cn = rmap (resolve h cs cn).
  Proof.
    unfold resolve. cbv zeta. rewrite skins_length, index_hom. destruct (index (S (length h)) h (start_table cs, start_table cn) 0) as [[ts tn]| | |]; cbn [emap rmap]; try reflexivity.
    rewrite resolve_table_hom by (intros; apply resolve_non_section_hom).
    destruct (resolve_table PNonSectionNotFound (fun h e => resolve_non_section (S (length h)) tn h e []) tn h) as [h1| | |] eqn:E; cbn [rmap].
    all: match goal with |- match rmap ?x with _ => _ end = _ => destruct x; cbn [rmap]; try reflexivity end.
    all: apply resolve_table_hom; intros; apply resolve_section_hom.
  Qed.
End Res.
