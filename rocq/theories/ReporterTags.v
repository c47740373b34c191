(** ReporterTags: when tagging and printing succeed. *)
From Verif Require Import Base Types Messages HeapFacts AnalyzerInv SpecText SpecTree AnalyzerText AnalyzerTree Reporter ReporterFacts.

Definition ok_with {A} (r : res A) (P : A -> Prop) : Prop := exists a, r = Ok a /\ P a.
Lemma ok_bind {A B} (x : res A) (f : A -> res B) P Q :
  ok_with x P -> (forall a, P a -> ok_with (f a) Q) -> ok_with (bind x f) Q.
Proof. intros (a & -> & Ha) Hf. cbn [bind]. auto. Qed.
Lemma ok_ret {A} (a : A) (P : A -> Prop) : P a -> ok_with (Ok a) P.
Proof. exists a. auto. Qed.
Lemma ok_impl {A} (x : res A) (P Q : A -> Prop) : ok_with x P -> (forall a, P a -> Q a) -> ok_with x Q.
Proof. intros (a & -> & Ha) H. exists a. auto. Qed.
Lemma ok_foldM {A S} (P : S -> Prop) (f : S -> A -> res S) l s :
  P s -> (forall s x, P s -> In x l -> ok_with (f s x) P) -> ok_with (foldM f l s) P.
Proof. intros Hs Hf. apply foldM_inv; assumption. Qed.

Section Tags.
  Context (c : ctx) (Hwf : WF c).
  Let h := c_heap c.
  Let lc := c_line_count c.
  Let HS := wf_shape _ Hwf.

  Definition full {A} (s : list A) : Prop := length s = lc.

  Lemma full_aset (s : snip) i t : full s -> i < lc -> ok_with (aset s i (Some t)) full.
  Proof. unfold full. intros Hs Hi. rewrite aset_ok by lia. eexists. split; [reflexivity|]. now rewrite upd_length. Qed.
  Lemma full_gap n scan t (s : snip) : full s -> (n = 0 \/ n + scan <= lc) -> ok_with (tag_gap n scan t s) full.
  Proof.
    revert scan s. induction n as [|n IH]; intros scan s Hs Hn; cbn [tag_gap]; [now apply ok_ret|].
    eapply ok_bind; [apply full_aset; [exact Hs|lia]|]. intros s' Hs'. apply IH; [assumption|right; lia].
  Qed.
  Lemma full_gap_to x scan t (s : snip) : full s -> x < lc -> ok_with (tag_gap (x - scan) scan t s) full.
  Proof. intros Hs Hx. apply full_gap; [assumption|]. lia. Qed.

  Lemma node_bounded i : 0 < i < length h -> n_line (hget h i) < lc /\ forall l, In l (hanging (hget h i)) -> l_line l < lc.
  Proof.
    intro Hi. destruct (wf_node _ Hwf i Hi) as (H1 & _ & H2). split; [assumption|]. rewrite Forall_forall in H2. intros l Hl. now apply H2.
  Qed.

  Lemma full_conts i t s : 0 < i < length h -> full s -> ok_with (tag_continuations (hget h i) t s) (fun a => full (fst a)).
  Proof.
    intros Hi Hs. unfold tag_continuations. destruct (n_conts (hget h i)) as [cs|] eqn:E; [|now apply ok_ret].
    apply ok_foldM; [assumption|]. intros [s' scan] l Hs' Hl. cbn [fst] in Hs'.
    assert (l_line l < lc) as Hll by (apply (node_bounded i Hi), hang_conts; rewrite E; exact Hl).
    eapply ok_bind; [apply full_gap_to; [exact Hs'|exact Hll]|]. intros s1 H1.
    eapply ok_bind; [apply full_aset; [exact H1|exact Hll]|]. intros s2 H2. now apply ok_ret.
  Qed.

  Lemma full_continuables i coll t s : 0 < i < length h -> (forall x, In x (olist coll) -> 0 < x < length h) -> full s ->
    ok_with (tag_continuables h (hget h i) coll t s) (fun a => full (fst a)).
  Proof.
    intros Hi Hc Hs. unfold tag_continuables. destruct coll as [ids|]; [|now apply ok_ret].
    apply ok_foldM; [assumption|]. intros [s' scan] x Hs' Hx. cbn [fst] in Hs'. specialize (Hc x Hx).
    destruct (node_bounded x Hc) as [Hl _].
    eapply ok_bind; [apply full_gap_to; [exact Hs'|exact Hl]|]. intros s1 H1.
    eapply ok_bind; [apply full_aset; [exact H1|exact Hl]|]. intros s2 H2. now apply full_conts.
  Qed.

  (** elements for which the reporter has no line to go on from *)
  Inductive unscannable : nat -> Prop :=
  | us_type e : match n_type (hget h e) with
                | FIELD | LIST_ITEM | FIELDSET_ENTRY | LIST | FIELDSET | MULTILINE_FIELD_BEGIN | SECTION => False
                | _ => True end -> unscannable e
  | us_fieldset e : n_type (hget h e) = FIELDSET -> n_entries (hget h e) = None -> unscannable e
  | us_section e l x : n_type (hget h e) = SECTION -> n_elements (hget h e) = l ++ [x] -> unscannable x -> unscannable e.
  (** such an element is followed by another one, in or below section [e] *)
  Inductive breaks : nat -> Prop :=
  | br_here e l1 x y l2 : n_type (hget h e) = SECTION -> n_elements (hget h e) = l1 ++ x :: y :: l2 -> unscannable x -> breaks e
  | br_sub e x : n_type (hget h e) = SECTION -> In x (n_elements (hget h e)) -> breaks x -> breaks e.

  Lemma unscannable_inv e : unscannable e ->
    match n_type (hget h e) with
    | FIELD | LIST_ITEM | FIELDSET_ENTRY | LIST | MULTILINE_FIELD_BEGIN => False
    | FIELDSET => n_entries (hget h e) = None
    | SECTION => exists l x, n_elements (hget h e) = l ++ [x] /\ unscannable x
    | _ => True
    end.
  Proof.
    intros [e' H|e' H1 H2|e' l x H1 H2 H3].
    - destruct (n_type (hget h e')); auto; contradiction.
    - now rewrite H1.
    - rewrite H1. eauto.
  Qed.
  Lemma breaks_inv e : breaks e -> n_type (hget h e) = SECTION /\
    ((exists l1 x y l2, n_elements (hget h e) = l1 ++ x :: y :: l2 /\ unscannable x) \/ exists x, In x (n_elements (hget h e)) /\ breaks x).
  Proof. intros [e' l1 x y l2 H1 H2 H3|e' x H1 H2 H3]; split; eauto 8. Qed.

  Definition scanned (e : nat) (r : res (snip * option nat)) : Prop :=
    (ok_with r (fun a => full (fst a) /\ (snd a = None <-> unscannable e)) /\ ~ breaks e) \/
    (r = Raise TypeError /\ breaks e).

  Lemma scanned_leaf e r : n_type (hget h e) <> SECTION ->
    ok_with r (fun a => full (fst a) /\ (snd a = None <-> unscannable e)) -> scanned e r.
  Proof. intros Ht Hr. left. split; [assumption|]. intro Hb. apply breaks_inv in Hb as [? _]. contradiction. Qed.

  Lemma not_un e sc : (match n_type (hget h e) with
    | FIELD | LIST_ITEM | FIELDSET_ENTRY | LIST | MULTILINE_FIELD_BEGIN => True | _ => False end) ->
    (Some sc : option nat) = None <-> unscannable e.
  Proof.
    intro H. split; [discriminate|]. intro Hu. apply unscannable_inv in Hu. destruct (n_type (hget h e)); contradiction.
  Qed.

  Lemma tag_element_scanned fuel e t s : 0 < e < length h -> length h <= fuel + e -> full s -> scanned e (tag_element fuel h e t s).
  Proof.
    revert e s. induction fuel as [|f IH]; intros e s He Hf Hs; [lia|]. cbn [tag_element].
    assert (forall T, n_type (hget h e) = T ->
      match T with FIELD | LIST_ITEM | FIELDSET_ENTRY | LIST | FIELDSET | MULTILINE_FIELD_BEGIN | SECTION => False | _ => True end ->
      scanned e (Ok (s, None))) as Kp.
    { intros T ET HT. apply scanned_leaf; [destruct T; try contradiction; congruence|]. apply ok_ret. split; [assumption|].
      split; [intros _|reflexivity]. apply us_type. rewrite ET. destruct T; auto. }
    assert (forall A, A = (do (s, sc) <- tag_continuations (hget h e) t s; Ok (s, Some sc)) ->
      match n_type (hget h e) with FIELD | LIST_ITEM | FIELDSET_ENTRY => True | _ => False end -> scanned e A) as Kc.
    { intros A -> HT. apply scanned_leaf; [intro E; rewrite E in HT; contradiction|].
      eapply ok_bind; [now apply full_conts|]. intros [s1 sc] H1. apply ok_ret. split; [exact H1|]. apply not_un.
      destruct (n_type (hget h e)); auto. }
    destruct (n_type (hget h e)) eqn:Et; try (apply (Kp _ eq_refl I)); try (apply (Kc _ eq_refl I)); clear Kp Kc.
    - (* FIELDSET *)
      apply scanned_leaf; [congruence|]. destruct (n_entries (hget h e)) as [l|] eqn:En.
      + eapply ok_bind.
        * apply full_continuables; [exact He| |exact Hs]. intros x Hx. cbn [olist] in Hx.
          assert (In x (olist (n_entries (hget h e)))) as Hx' by (now rewrite En). apply (shape_entry h e x HS) in Hx' as [Hx' _]. lia.
        * intros [s1 sc] H1. apply ok_ret. split; [exact H1|]. split; [discriminate|]. intro Hu. apply unscannable_inv in Hu.
          rewrite Et in Hu. congruence.
      + apply ok_ret. split; [assumption|]. split; [intros _|reflexivity]. now apply us_fieldset.
    - (* LIST *)
      apply scanned_leaf; [congruence|]. eapply ok_bind.
      + apply full_continuables; [exact He| |exact Hs]. intros x Hx. apply (shape_item h e x HS) in Hx as [Hx _]. lia.
      + intros [s1 sc] H1. apply ok_ret. split; [exact H1|]. apply not_un. now rewrite Et.
    - (* MULTILINE *)
      apply scanned_leaf; [congruence|]. destruct (node_bounded e He) as [_ Hb].
      eapply ok_bind with (P := full).
      + destruct (n_lines (hget h e)) as [ls|] eqn:El; [|now apply ok_ret]. apply ok_foldM; [assumption|].
        intros s1 l H1 Hl. apply full_aset; [assumption|]. apply Hb, hang_lines. rewrite El. exact Hl.
      + intros s1 H1. destruct (n_end (hget h e)) as [l|] eqn:En.
        * eapply ok_bind; [apply full_aset; [exact H1|apply Hb, hang_end, En]|]. intros s2 H2. apply ok_ret. split; [exact H2|].
          apply not_un. now rewrite Et.
        * destruct (n_lines (hget h e)); apply ok_ret; (split; [exact H1|]; apply not_un; now rewrite Et).
    - (* SECTION *)
      assert (forall l2 l1 sc s, n_elements (hget h e) = l1 ++ l2 -> full s ->
        (forall x, In x l1 -> ~ breaks x) -> (forall a x y b, l1 = a ++ x :: y :: b -> ~ unscannable x) ->
        (sc = None <-> exists a x, l1 = a ++ [x] /\ unscannable x) ->
        scanned e (foldM (fun (a : snip * option nat) e =>
            let '(s, sc) := a in
            match sc with
            | None => Raise TypeError
            | Some scan =>
                let x := hget h e in
                do s <- tag_gap (n_line x - scan) scan INDICATE s;
                do s <- aset s (n_line x) (Some INDICATE);
                tag_element f h e t s
            end) l2 (s, sc))) as G.
      { induction l2 as [|x l2 IH2]; intros l1 sc s0 Hl H0 Hnb Hnu Hsc; cbn [foldM].
        - rewrite app_nil_r in Hl. left. split.
          + apply ok_ret. split; [assumption|]. cbn [snd]. rewrite Hsc. split.
            * intros (a & x & -> & Hu). eapply us_section; eassumption.
            * intro Hu. apply unscannable_inv in Hu. rewrite Et in Hu. destruct Hu as (l & x & Hl' & Hu). exists l, x. split; [congruence|assumption].
          + intro Hb. apply breaks_inv in Hb as [_ [(a & x & y & b & Hb & Hu)|(x & Hx & Hb)]].
            * apply (Hnu a x y b); [congruence|assumption].
            * apply (Hnb x); [congruence|assumption].
        - assert (In x (n_elements (hget h e))) as Hx by (rewrite Hl; apply in_or_app; right; now left).
          destruct (shape_elem h e x HS Hx) as (Hx1 & _). assert (0 < x < length h) as Hx0 by lia.
          destruct sc as [scan|].
          2:{ cbn [bind]. right. split; [reflexivity|]. destruct Hsc as [Hsc _]. destruct (Hsc eq_refl) as (a & y & -> & Hu).
              rewrite <- app_assoc in Hl. cbn in Hl. eapply br_here; eassumption. }
          destruct (node_bounded x Hx0) as [Hxl _].
          destruct (full_gap_to (n_line (hget h x)) scan INDICATE s0 H0 Hxl) as (s1 & E1 & H1). rewrite E1. cbn [bind].
          destruct (full_aset s1 (n_line (hget h x)) INDICATE H1 Hxl) as (s2 & E2 & H2). rewrite E2. cbn [bind].
          destruct (IH x s2 Hx0 ltac:(lia) H2) as [[(a & E3 & H3 & H3') Hn3]|[E3 Hb3]].
          + rewrite E3. cbn [bind]. destruct a as [s3 sc3]. cbn [fst snd] in *. apply (IH2 (l1 ++ [x])).
            * rewrite <- app_assoc. assumption.
            * assumption.
            * intros z Hz. apply in_app_or in Hz as [Hz|[<-|[]]]; auto.
            * intros a z y b Hab Hu. destruct b as [|b0 b] using rev_ind.
              -- assert (a ++ [z; y] = (a ++ [z]) ++ [y]) as Hr by (rewrite <- app_assoc; reflexivity).
                 rewrite Hr in Hab. apply app_inj_tail in Hab as [Hab _].
                 destruct Hsc as [_ Hsc]. assert (Some scan = None) by (apply Hsc; eauto). discriminate.
              -- clear IHb. change (l1 ++ [x] = a ++ z :: y :: b ++ [b0]) in Hab.
                 assert (a ++ z :: y :: b ++ [b0] = (a ++ z :: y :: b) ++ [b0]) as Hr by (rewrite <- app_assoc; reflexivity).
                 rewrite Hr in Hab. apply app_inj_tail in Hab as [Hab _]. eapply Hnu; eassumption.
            * rewrite H3'. split.
              -- intro Hu. exists l1, x. auto.
              -- intros (a & z & Hab & Hu). apply app_inj_tail in Hab as [_ ->]. assumption.
          + rewrite E3. cbn [bind]. right. split; [reflexivity|]. eapply br_sub; eassumption. }
      apply (G (n_elements (hget h e)) [] (Some (n_line (hget h e) + 1)) s); auto.
      + intros [|? ?] x y b; discriminate.
      + split; [discriminate|]. intros ([|? ?] & x & H & _); discriminate.
  Qed.

  (** the same without descending into subsections: element [x], before any subsection, has no
      line to go on from and is followed by another element *)
  Definition flat_breaks (els : list nat) : Prop :=
    exists l1 x y l2, els = l1 ++ x :: y :: l2 /\ (forall z, In z l1 -> n_type (hget h z) <> SECTION) /\
      n_type (hget h x) <> SECTION /\ unscannable x.

  Lemma tag_flat_scanned fuel e t l1 l2 s sc : 0 < e -> length h <= fuel + e -> full s ->
    n_elements (hget h e) = l1 ++ l2 ->
    (forall z, In z l1 -> n_type (hget h z) <> SECTION) ->
    (forall a x y b, l1 = a ++ x :: y :: b -> ~ unscannable x) ->
    (sc = None <-> exists a x, l1 = a ++ [x] /\ unscannable x) ->
    (ok_with (tag_flat fuel h l2 t s sc) full /\ ~ flat_breaks (n_elements (hget h e))) \/
    (tag_flat fuel h l2 t s sc = Raise TypeError /\ flat_breaks (n_elements (hget h e))).
  Proof.
    intros He Hf. revert l1 s sc. induction l2 as [|x l2 IH2]; intros l1 s sc Hs Hl Hns Hnu Hsc; cbn [tag_flat].
    - left. split; [now apply ok_ret|]. rewrite app_nil_r in Hl. intros (a & x & y & b & Hb & _ & _ & Hu).
      apply (Hnu a x y b); [congruence|assumption].
    - assert (In x (n_elements (hget h e))) as Hx by (rewrite Hl; apply in_or_app; right; now left).
      destruct (shape_elem h e x HS Hx) as (Hx1 & _). assert (0 < x < length h) as Hx0 by lia.
      destruct sc as [scan|].
      2:{ right. split; [reflexivity|]. destruct Hsc as [Hsc _]. destruct (Hsc eq_refl) as (a & y & -> & Hu).
          rewrite <- app_assoc in Hl. cbn in Hl. exists a, y, x, l2. split; [assumption|]. split; [|split; [|assumption]].
          - intros z Hz. apply Hns. apply in_or_app. now left.
          - apply Hns. apply in_or_app. right. now left. }
      assert (~ unscannable (last l1 e) \/ l1 = []) as Hlast.
      { destruct l1 as [|b l1 _] using rev_ind; [now right|]. left. rewrite last_last. intro Hu.
        destruct Hsc as [_ Hsc]. assert (Some scan = None) by (apply Hsc; eauto). discriminate. }
      assert (forall a z y b, l1 ++ [x] = a ++ z :: y :: b -> ~ unscannable z) as Hnu'.
      { intros a z y b Hab Hu. destruct b as [|b0 b] using rev_ind.
        -- assert (a ++ [z; y] = (a ++ [z]) ++ [y]) as Hr by (rewrite <- app_assoc; reflexivity).
           rewrite Hr in Hab. apply app_inj_tail in Hab as [Hab _].
           destruct Hsc as [_ Hsc]. assert (Some scan = None) by (apply Hsc; eauto). discriminate.
        -- clear IHb. assert (a ++ z :: y :: b ++ [b0] = (a ++ z :: y :: b) ++ [b0]) as Hr by (rewrite <- app_assoc; reflexivity).
           rewrite Hr in Hab. apply app_inj_tail in Hab as [Hab _]. eapply Hnu; eassumption. }
      destruct (node_bounded x Hx0) as [Hxl _].
      destruct (full_gap_to (n_line (hget h x)) scan INDICATE s Hs Hxl) as (s1 & E1 & H1). rewrite E1. cbn [bind].
      destruct (itype_eqb (n_type (hget h x)) SECTION) eqn:Et.
      + left. split; [now apply ok_ret|]. intros (a & z & y & b & Hb & Hnb & Hnz & Hu).
        assert (n_type (hget h x) = SECTION) as Ex by (destruct (n_type (hget h x)); cbn in Et; congruence).
        (* z is among l1 *)
        rewrite Hl in Hb. destruct (le_lt_dec (length l1) (length a)) as [Hlen|Hlen].
        * (* x in a or z = x *)
          assert (In x (a ++ [z])) as Hin.
          { assert (nth_error (l1 ++ x :: l2) (length l1) = Some x) as Hn by (rewrite nth_error_app2, Nat.sub_diag by lia; reflexivity).
            rewrite Hb in Hn. destruct (Nat.eq_dec (length l1) (length a)) as [Hq|Hq].
            - rewrite Hq, nth_error_app2, Nat.sub_diag in Hn by lia. injection Hn as ->. apply in_or_app. right. now left.
            - rewrite nth_error_app1 in Hn by lia. apply nth_error_In in Hn. apply in_or_app. now left. }
          apply in_app_or in Hin as [Hin|[->|[]]]; [now apply (Hnb x)|contradiction].
        * assert (exists b', l1 ++ [x] = a ++ z :: y :: b') as (b' & Hb').
          { apply (f_equal (firstn (S (length l1)))) in Hb. rewrite (firstn_app (S (length l1)) l1), (firstn_app (S (length l1)) a) in Hb.
            rewrite (firstn_all2 l1), (firstn_all2 a) in Hb by lia.
            replace (S (length l1) - length l1) with 1 in Hb by lia. cbn [firstn] in Hb.
            destruct (S (length l1) - length a) as [|[|n]] eqn:En; [lia|lia|]. cbn [firstn] in Hb. eauto. }
          apply (Hnu' a z y b' Hb'). assumption.
      + destruct (full_aset s1 (n_line (hget h x)) INDICATE H1 Hxl) as (s2 & E2 & H2). rewrite E2. cbn [bind].
        assert (n_type (hget h x) <> SECTION) as Ex by (intro E; rewrite E in Et; discriminate).
        destruct (tag_element_scanned fuel x t s2 Hx0 ltac:(lia) H2) as [[(a & E3 & H3 & H3') Hn3]|[E3 Hb3]].
        2:{ apply breaks_inv in Hb3 as [? _]. contradiction. }
        rewrite E3. cbn [bind]. destruct a as [s3 sc3]. cbn [fst snd] in *. apply (IH2 (l1 ++ [x])).
        * assumption.
        * rewrite <- app_assoc. assumption.
        * intros z Hz. apply in_app_or in Hz as [Hz|[<-|[]]]; auto.
        * exact Hnu'.
        * rewrite H3'. split.
          -- intro Hu. exists l1, x. auto.
          -- intros (a & z & Hab & Hu). apply app_inj_tail in Hab as [_ ->]. assumption.
  Qed.

  (** * Reporters *)

  Definition rep (r : reporter) : Prop := r_ctx r = c /\ indexed c (r_index r) /\ full (r_snip r).

  Lemma rep_new : ok_with (new_reporter c) rep.
  Proof.
    destruct (new_reporter_ok c Hwf) as (ix & E & _ & H). exists (MkReporter c ix (repeat None (c_line_count c))). split; [assumption|].
    split; [reflexivity|]. split; [assumption|]. apply repeat_length.
  Qed.
  Lemma rep_heap r : rep r -> r_heap r = h.
  Proof. intros (H & _). unfold r_heap. now rewrite H. Qed.
  Lemma rep_with r s : rep r -> full s -> rep (with_snip r s).
  Proof. intros (H1 & H2 & _) Hs. split; [assumption|]. split; assumption. Qed.
  Lemma rep_mark r l t : rep r -> l < lc -> ok_with (mark_line r l t) rep.
  Proof.
    intros Hr Hl. unfold mark_line. eapply ok_bind; [apply full_aset; [apply Hr|exact Hl]|].
    intros s Hs. apply ok_ret. now apply rep_with.
  Qed.
  Definition no_document (i : nat) : n_type (hget h i) <> DOCUMENT -> node_line (hget h i) = Ok (n_line (hget h i)).
  Proof. intro H. unfold node_line. destruct (n_type (hget h i)) eqn:E; try reflexivity. congruence. Qed.
  Lemma in_tree_type i : 0 < i < length h -> n_type (hget h i) <> DOCUMENT.
  Proof.
    intros Hi E. destruct (s_node _ (sh_s _ HS) i Hi) as (p & _ & _ & Hp). unfold placed, ncls in Hp. fold h in Hp. rewrite E in Hp. exact Hp.
  Qed.
  Lemma rep_mark_node r i t : rep r -> 0 < i < length h -> ok_with (mark_node r i t) rep.
  Proof.
    intros Hr Hi. unfold mark_node. rewrite (rep_heap r Hr), no_document by (now apply in_tree_type). cbn [bind].
    apply rep_mark; [assumption|]. now apply node_bounded.
  Qed.
  Lemma rep_report_leaf r l : rep r -> l_line l < lc -> ok_with (report_leaf r l) rep.
  Proof. apply rep_mark. Qed.

  Lemma rep_element r e : rep r -> 0 < e < length h ->
    (ok_with (report_element r e) rep /\ ~ breaks e) \/ (report_element r e = Raise TypeError /\ breaks e).
  Proof.
    intros Hr He. unfold report_element. destruct (rep_mark_node r e EMPHASIZE Hr He) as (r1 & E1 & H1). rewrite E1. cbn [bind].
    unfold tfuel. rewrite (rep_heap r1 H1).
    destruct (tag_element_scanned (S (length h)) e INDICATE (r_snip r1) He ltac:(lia) (proj2 (proj2 H1))) as [[(a & E2 & H2 & _) Hn]|[E2 Hb]].
    - left. split; [|assumption]. rewrite E2. cbn [bind]. destruct a as [s sc]. apply ok_ret. now apply rep_with.
    - right. rewrite E2. auto.
  Qed.

  Lemma rep_missing r e : rep r -> e < length h ->
    (ok_with (report_missing_element r e) rep /\ ~ (n_type (hget h e) = SECTION /\ flat_breaks (n_elements (hget h e)))) \/
    (report_missing_element r e = Raise TypeError /\ n_type (hget h e) = SECTION /\ flat_breaks (n_elements (hget h e))).
  Proof.
    intros Hr He. unfold report_missing_element. rewrite (rep_heap r Hr).
    destruct (itype_eqb (n_type (hget h e)) DOCUMENT) eqn:Ed.
    - assert (n_type (hget h e) = DOCUMENT) as Et by (destruct (n_type (hget h e)); cbn in Ed; congruence).
      cbn [bind]. rewrite Et. cbn [itype_eqb]. left. split; [|intros [? _]; congruence].
      unfold tfuel. rewrite (rep_heap r Hr). cbn [tag_element]. rewrite Et. cbn [bind]. apply ok_ret. apply rep_with; [assumption|apply Hr].
    - assert (0 < e < length h) as He0.
      { split; [|assumption]. destruct e; [|lia]. pose proof (s_doc _ (sh_s _ HS)) as Hd. fold h in Hd. unfold ncls in Hd.
        destruct (n_type (hget h 0)); cbn in Ed; try discriminate. }
      destruct (rep_mark r (n_line (hget h e)) INDICATE Hr (proj1 (node_bounded e He0))) as (r1 & E1 & H1). rewrite E1. cbn [bind].
      unfold tfuel. rewrite (rep_heap r1 H1).
      destruct (itype_eqb (n_type (hget h e)) SECTION) eqn:Es.
      + assert (n_type (hget h e) = SECTION) as Et by (destruct (n_type (hget h e)); cbn in Es; congruence).
        destruct (tag_flat_scanned (S (length h)) e QUESTION [] (n_elements (hget h e)) (r_snip r1) (Some (n_line (hget h e) + 1)))
          as [[(s & E2 & H2) Hn]|[E2 Hb]]; try lia.
        * exact (proj2 (proj2 H1)).
        * reflexivity.
        * intros z [].
        * intros [|? ?] x y b; discriminate.
        * split; [discriminate|]. intros ([|? ?] & x & H & _); discriminate.
        * left. split; [|intros [_ ?]; contradiction]. rewrite E2. cbn [bind]. apply ok_ret. now apply rep_with.
        * right. rewrite E2. auto.
      + assert (n_type (hget h e) <> SECTION) as Et by (intro E; rewrite E in Es; discriminate).
        left. split; [|intros [? _]; contradiction].
        destruct (tag_element_scanned (S (length h)) e QUESTION (r_snip r1) He0 ltac:(lia) (proj2 (proj2 H1))) as [[(a & E2 & H2 & _) Hn]|[E2 Hb]].
        * rewrite E2. cbn [bind]. destruct a as [s sc]. apply ok_ret. now apply rep_with.
        * apply breaks_inv in Hb as [? _]. contradiction.
  Qed.

  Lemma rep_comments r e cs : rep r -> 0 < e < length h -> n_comments (hget h e) = Some cs -> ok_with (report_comments r e) rep.
  Proof.
    intros Hr He Hc. unfold report_comments. eapply ok_bind; [now apply rep_mark_node|]. intros r1 H1. rewrite (rep_heap r1 H1), Hc.
    apply ok_foldM; [assumption|]. intros r2 l H2 Hl. apply rep_report_leaf; [assumption|].
    apply (node_bounded e He), hang_comments. rewrite Hc. exact Hl.
  Qed.
  Lemma rep_multiline r e ls : rep r -> 0 < e < length h -> n_lines (hget h e) = Some ls -> ok_with (report_multiline_value r e) rep.
  Proof.
    intros Hr He Hc. unfold report_multiline_value. rewrite (rep_heap r Hr), Hc.
    apply ok_foldM; [assumption|]. intros r2 l H2 Hl. apply rep_report_leaf; [assumption|].
    apply (node_bounded e He), hang_lines. rewrite Hc. exact Hl.
  Qed.

  (** * Printing *)

  Lemma complete_line_length s j : length (complete_line lc s j) = length s.
  Proof.
    unfold complete_line. destruct (nth_error s j) as [[t|]|]; try reflexivity.
    destruct (_ || _ || _ || _); [now rewrite upd_length|]. destruct (_ && _); [now rewrite upd_length|reflexivity].
  Qed.
  Lemma complete_fold_length l s : length (fold_left (complete_line lc) l s) = length s.
  Proof. revert s. induction l as [|j l IH]; intro s; cbn [fold_left]; [reflexivity|]. now rewrite IH, complete_line_length. Qed.
  Lemma complete_ok s : full s -> ok_with (complete lc s) full.
  Proof.
    unfold full. intro Hs. unfold complete. destruct (forallb _ s).
    - apply ok_ret. now rewrite map_length.
    - set (s' := fold_left (complete_line lc) (seq 0 (length s)) s).
      assert (length s' = lc) as Hl by (unfold s'; now rewrite complete_fold_length).
      destruct (rev s') as [|[t|] l] eqn:Er.
      + apply (f_equal (@length _)) in Er. rewrite rev_length in Er. cbn in Er. pose proof (wf_lc _ Hwf). unfold lc in *. lia.
      + now apply ok_ret.
      + apply ok_ret. now rewrite upd_length.
  Qed.

  Lemma line_content_ok r j ri : rep r -> info_at r j = Some ri -> exists t, line_content c ri = Ok t.
  Proof.
    intros (H1 & H2 & H3) Hi. unfold info_at in Hi. destruct (nth_error (r_index r) j) as [[x|]|] eqn:E; try discriminate.
    injection Hi as ->. apply H2 in E. apply (source_range c Hwf) in E as [E _]. unfold line_content.
    destruct (rget (ri_ranges ri) R_line) as [[b e]|]; [eauto|congruence].
  Qed.
  Lemma text_line_ok r j t : rep r -> exists x, text_line r j t = Ok x.
  Proof.
    intro Hr. unfold text_line. destruct t; try (eexists; reflexivity);
      (destruct (info_at r j) as [ri|] eqn:Ei; cbn [bind]; [|eexists; reflexivity]);
      (destruct (line_content_ok r j ri Hr Ei) as [x Ex]; rewrite (proj1 Hr), Ex; cbn [bind]; eexists; reflexivity).
  Qed.
  Lemma html_line_ok r j t : rep r -> exists x, html_line r j t = Ok x.
  Proof.
    intro Hr. unfold html_line. destruct t; try (eexists; reflexivity);
      (destruct (info_at r j) as [ri|] eqn:Ei; cbn [bind]; [|eexists; reflexivity]);
      (destruct (line_content_ok r j ri Hr Ei) as [x Ex]; rewrite (proj1 Hr), Ex; cbn [bind]; eexists; reflexivity).
  Qed.
  Lemma print_lines_ok pl j (s : snip) : (forall j t, exists x, pl j t = Ok x) -> exists xs, print_lines pl j s = Ok xs.
  Proof.
    intro H. revert j. induction s as [|[t|] s IH]; intro j; cbn [print_lines]; [eexists; reflexivity| |apply IH].
    destruct (H j t) as [x ->]. destruct (IH (S j)) as [xs ->]. cbn [bind]. eexists; reflexivity.
  Qed.
  Lemma snippet_ok r : rep r -> c_reporter c <> TerminalReporter -> exists x, snippet r = Ok x.
  Proof.
    intros Hr Hk. unfold snippet. rewrite (proj1 Hr). destruct (complete_ok (r_snip r) (proj2 (proj2 Hr))) as (s & E & Hs).
    unfold lc in E. rewrite E. cbn [bind]. pose proof (rep_with r s Hr Hs) as Hr'. unfold print. rewrite (proj1 Hr').
    destruct (c_reporter c); [| |congruence].
    - destruct (print_lines_ok (text_line (with_snip r s)) 0 (r_snip (with_snip r s))) as [xs ->]; [intros; now apply text_line_ok|]. cbn [bind]. eexists; reflexivity.
    - destruct (print_lines_ok (html_line (with_snip r s)) 0 (r_snip (with_snip r s))) as [xs ->]; [intros; now apply html_line_ok|]. cbn [bind].
      destruct (c_source c) as [[|? ?]|]; eexists; reflexivity.
  Qed.

  (** with the terminal reporter, printing may fail on a missing style or type *)
  Definition prints {A} (x : res A) : Prop := (exists a, x = Ok a) \/ (c_reporter c = TerminalReporter /\ x = Raise KeyError).

  Lemma terminal_line_out r j t : rep r -> (exists x, terminal_line r j t = Ok x) \/ terminal_line r j t = Raise KeyError.
  Proof.
    intro Hr. unfold terminal_line. rewrite (proj1 Hr).
    assert (forall (x : res text) (f : text -> text), (exists a, x = Ok a) \/ x = Raise KeyError ->
      (exists y, (do content <- x; Ok (f content)) = Ok y) \/ (do content <- x; Ok (f content)) = Raise KeyError) as K.
    { intros x f [[a ->]| ->]; cbn [bind]; [left; eexists; reflexivity|now right]. }
    assert (forall ri l x, (exists a, foldM (fun content x =>
                    let '(name, (b, e)) := x in
                    match range_style name with
                    | None => Raise KeyError
                    | Some st =>
                        Ok (firstn (b - fst (line_range ri)) content ++ st ++ slice (c_input c) b e ++ RESET ++
                            skipn (e - fst (line_range ri)) content)
                    end) l x = Ok a) \/ foldM (fun content x =>
                    let '(name, (b, e)) := x in
                    match range_style name with
                    | None => Raise KeyError
                    | Some st =>
                        Ok (firstn (b - fst (line_range ri)) content ++ st ++ slice (c_input c) b e ++ RESET ++
                            skipn (e - fst (line_range ri)) content)
                    end) l x = Raise KeyError) as F.
    { intro ri. induction l as [|[nm [b e]] l IH]; intro x; cbn [foldM]; [left; eexists; reflexivity|].
      destruct (range_style nm); cbn [bind]; [apply IH|now right]. }
    assert ((exists a, match info_at r j with
        | None => Ok []
        | Some i =>
            match ri_type i with
            | None => Raise KeyError
            | Some ty =>
                do content <- line_content c i;
                if itype_eqb ty COMMENT || itype_eqb ty UNPARSED
                then Ok (BRIGHT_BLACK ++ content ++ RESET)
                else
                  let lb := fst (line_range (ri_ranges i)) in
                  foldM (fun content x =>
                    let '(name, (b, e)) := x in
                    match range_style name with
                    | None => Raise KeyError
                    | Some st =>
                        Ok (firstn (b - lb) content ++ st ++ slice (c_input c) b e ++ RESET ++
                            skipn (e - lb) content)
                    end)
                    (sort_desc (filter (fun x => negb (rname_eqb (fst x) R_line)) (ri_ranges i)))
                    content
            end
        end = Ok a) \/ match info_at r j with
        | None => Ok []
        | Some i =>
            match ri_type i with
            | None => Raise KeyError
            | Some ty =>
                do content <- line_content c i;
                if itype_eqb ty COMMENT || itype_eqb ty UNPARSED
                then Ok (BRIGHT_BLACK ++ content ++ RESET)
                else
                  let lb := fst (line_range (ri_ranges i)) in
                  foldM (fun content x =>
                    let '(name, (b, e)) := x in
                    match range_style name with
                    | None => Raise KeyError
                    | Some st =>
                        Ok (firstn (b - lb) content ++ st ++ slice (c_input c) b e ++ RESET ++
                            skipn (e - lb) content)
                    end)
                    (sort_desc (filter (fun x => negb (rname_eqb (fst x) R_line)) (ri_ranges i)))
                    content
            end
        end = Raise KeyError) as G.
    { destruct (info_at r j) as [ri|] eqn:Ei; [|left; eexists; reflexivity]. destruct (ri_type ri) as [ty|]; [|now right].
      destruct (line_content_ok r j ri Hr Ei) as [x ->]. cbn [bind]. destruct (_ || _); [left; eexists; reflexivity|]. apply F. }
    destruct t; try (left; eexists; reflexivity); apply K; exact G.
  Qed.
  Lemma print_lines_out pl j (s : snip) : (forall j t, (exists x, pl j t = Ok x) \/ pl j t = Raise KeyError) ->
    (exists xs, print_lines pl j s = Ok xs) \/ print_lines pl j s = Raise KeyError.
  Proof.
    intro H. revert j. induction s as [|[t|] s IH]; intro j; cbn [print_lines]; [left; eexists; reflexivity| |apply IH].
    destruct (H j t) as [[x ->]| ->]; cbn [bind]; [|now right].
    destruct (IH (S j)) as [[xs ->]| ->]; cbn [bind]; [left; eexists; reflexivity|now right].
  Qed.
  Lemma snippet_out r : rep r -> prints (snippet r).
  Proof.
    intro Hr. destruct (c_reporter c) eqn:Ek.
    - left. apply snippet_ok; [assumption|congruence].
    - left. apply snippet_ok; [assumption|congruence].
    - unfold snippet. rewrite (proj1 Hr). destruct (complete_ok (r_snip r) (proj2 (proj2 Hr))) as (s & E & Hs).
      unfold lc in E. rewrite E. cbn [bind]. pose proof (rep_with r s Hr Hs) as Hr'. unfold print. rewrite (proj1 Hr'), Ek.
      destruct (print_lines_out (terminal_line (with_snip r s)) 0 (r_snip (with_snip r s))) as [[xs ->]| ->];
        [intros; now apply terminal_line_out| |]; cbn [bind]; [left; eexists; reflexivity|right; auto].
  Qed.
End Tags.
