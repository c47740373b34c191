(** PropQueryProofs: the statements of PropQuery for parsed documents. *)
From Verif Require Import Base Types Messages Resolver Reporter Errors Context Elements SpecTree SpecResolve SpecRead SpecApi SpecQuery SpecLoad Reads ErrorCaches ApiDoc ApiInv ApiState ApiOps Session SessionInv SessionRun QueryProofs LoadProofs RepeatProofs PropParseProofs PropReadProofs ParseOutcome.

Section Parsed.
  Context {inp : text} {loc : locale} {rk : reporter_kind} {src : option text} {c : ctx} (HP : parse_context inp loc rk src = Ok c).
  Let HD : Doc (c_heap c) := doc_of_parse inp loc rk src c HP.
  Let HR : forall s, reach c s -> Inv c s := inv_reach c HD.

  Lemma input_is : c_input c = inp /\ c_locale c = loc.
  Proof. pose proof HP as HP'. apply parse_ok in HP' as (st & lc & h & _ & _ & ->). split; reflexivity. Qed.

  Lemma query_single s o e what key req L : reach c s -> names s o CSection e -> element_list (c_heap c) e L ->
    single_answer c s (fst (query what o key req s)) what o e key req (filter (keyed (c_heap c) key) L) (snd (query what o key req s)).
  Proof. intros Hs. apply (query_answer c HD). exact (HR s Hs). Qed.
  Lemma query_entry s o e key req L : reach c s -> names s o CFieldset e -> entry_list (c_heap c) e L ->
    entry_answers c s (fst (entry_query o key req s)) o e key req (filter (keyed (c_heap c) key) L) (snd (entry_query o key req s)).
  Proof. intros Hs. apply (entry_answer c HD). exact (HR s Hs). Qed.
  Lemma query_plural s o e k key L : reach c s -> names s o CSection e -> element_list (c_heap c) e L ->
    plural_answer c s (fst (plural k o key s)) k o key (filter (keyed (c_heap c) key) L) (snd (plural k o key s)).
  Proof. intros Hs. apply (plural_answers c HD). exact (HR s Hs). Qed.
  Lemma query_elements s o e key L : reach c s -> names s o CSection e -> element_list (c_heap c) e L ->
    exists ys, snd (section_elements o key s) = Ok ys /\ Forall2 (fun y x => is_obj (fst (section_elements o key s)) y CSectionElement x (Some o)) ys (filter (keyed (c_heap c) key) L).
  Proof. intros Hs. apply (elements_answer c HD). exact (HR s Hs). Qed.
  Lemma query_entries s o e key L : reach c s -> names s o CFieldset e -> entry_list (c_heap c) e L ->
    exists ys, snd (fieldset_entries o key s) = Ok ys /\ Forall2 (fun y x => is_obj (fst (fieldset_entries o key s)) y CEntry x (Some o)) ys (filter (keyed (c_heap c) key) L).
  Proof. intros Hs. apply (entries_answer c HD). exact (HR s Hs). Qed.
  Lemma query_items s o e L : reach c s -> names s o CList e -> item_list (c_heap c) e L ->
    exists ys, snd (list_items o s) = Ok ys /\ Forall2 (fun y x => is_obj (fst (list_items o s)) y CItem x (Some o)) ys L.
  Proof. intros Hs. apply (items_answer c HD). exact (HR s Hs). Qed.

  (** at most one list, and one iff the chain of links ends *)
  Lemma one_list e : (forall L L', element_list (c_heap c) e L -> element_list (c_heap c) e L' -> L = L') /\
    ((exists L, element_list (c_heap c) e L) <-> ends (c_heap c) e) /\
    (n_type (hget (c_heap c) e) <> SECTION -> (exists! L, entry_list (c_heap c) e L) /\ exists! L, item_list (c_heap c) e L).
  Proof.
    split; [|split].
    - intros L L' H. now apply element_list_fun.
    - split; [intros (L & HL); now apply (element_list_ends _ e L)|apply (element_list_total _ HD)].
    - intro Ht. pose proof (doc_ends _ HD e Ht) as He. split.
      + destruct (entry_list_total _ HD e He) as (L & HL). exists L. split; [exact HL|]. now apply entry_list_fun.
      + destruct (item_list_total _ e He) as (L & HL). exists L. split; [exact HL|]. now apply item_list_fun.
  Qed.

  Lemma missing_stays s s' o cl e : reach c s -> goes_on s s' -> names s o cl e -> names s' o cl e.
  Proof. intros Hs HG. apply (names_on c HD s s'); [assumption|]. exact (HR s Hs). Qed.
  Lemma missing_blamed s m k key o e : reach c s -> outermost m = (k, key, o) -> names s o CSection e ->
    let error := v_missing_element c key e (absence_message k) in
    (forall what key', missing_query what m key' (Some true) s = (s, raised error)) /\
    (forall key', missing_entry m key' (Some true) s = (s, raised error)) /\
    (forall A, @missing_value A m true s = (s, raised error)) /\
    (forall A, @missing_comment A m true s = (s, raised error)) /\
    (forall A, @missing_key A m s = (s, raised error)).
  Proof.
    intros Hs Hm HN. pose proof (fun A => missing_error_is (A := A) c k key o e s (HR s Hs) HN m Hm) as G.
    repeat split; intros; apply G.
  Qed.

  Lemma missing_path s o e : reach c s -> names s o CSection e -> forall L, element_list (c_heap c) e L -> forall what key req m, snd (query what o key req s) = Ok (FMissing m) ->
    outermost m = (missing_kind what, key, o) /\ filter (keyed (c_heap c) key) L = [] /\
    forall s', (forall what' key' m', snd (missing_query what' m key' None s') = Ok (FMissing m') -> outermost m' = outermost m) /\
      (forall key' m', snd (missing_entry m key' None s') = Ok (FMissing m') -> outermost m' = outermost m).
  Proof.
    intros Hs HN L HL what key req m E. pose proof (query_single s o e what key req L Hs HN HL) as Q. rewrite E in Q. unfold single_answer in Q.
    destruct (filter (keyed (c_heap c) key) L) as [|x [|x' l]] eqn:EL.
    - split; [|split].
      + unfold none_found, raised in Q. destruct req as [[|]|], (o_req (oget s o)); try (destruct (v_missing_element _ _ _ _); discriminate); try discriminate. injection Q as ->. reflexivity.
      + reflexivity.
      + intro s'. split; cbn; intros; match goal with H : Ok _ = Ok _ |- _ => injection H as <- end; reflexivity.
    - exfalso. destruct what as [kd|]; [|destruct Q as (y & Q & _); discriminate]. destruct (readable _ _).
      + destruct Q as [(y & Q & _)|[Q _]]; discriminate.
      + unfold raised in Q. destruct (v_unexpected_element_type _ _ _ _); discriminate.
    - exfalso. unfold raised in Q. destruct (v_unexpected_multiple_elements _ _ _ _); discriminate.
  Qed.

  Lemma yielded_again s e cl x k s1 y s2 : reach c s -> names s e cl x -> cl = CSectionElement \/ cl = CElement -> to_kind k e s = (s1, Ok y) -> goes_on s1 s2 ->
    is_obj s1 y (kind_class k) x (o_parent (oget s e)) /\ to_kind k e s2 = (s2, Ok y) /\ forall j, j <> k ->
      to_kind j e s2 = (s2, match j with KSection => raised (v_unexpected_element_type c None x Q_expected_section) | _ => Raise TypeError end).
  Proof. intros Hs. apply (yield_again c HD). exact (HR s Hs). Qed.
  Lemma same_object s o e what key req req' s1 y s2 : reach c s -> names s o CSection e -> query what o key req s = (s1, Ok (FObj y)) -> goes_on s1 s2 ->
    snd (query what o key req' s2) = Ok (FObj y).
  Proof. intros Hs. apply (query_again c HD). exact (HR s Hs). Qed.
  Lemma same_objects s o e k key s1 ys s2 : reach c s -> names s o CSection e ->
    (plural k o key s = (s1, Ok ys) -> goes_on s1 s2 -> snd (plural k o key s2) = Ok ys) /\
    (section_elements o key s = (s1, Ok ys) -> goes_on s1 s2 -> snd (section_elements o key s2) = Ok ys).
  Proof. intros Hs HN. split; [apply (plural_again c HD k o e); auto|apply (elements_again c HD o e); auto]. Qed.
  Lemma same_members s o e key s1 ys s2 : reach c s ->
    (names s o CFieldset e -> fieldset_entries o key s = (s1, Ok ys) -> goes_on s1 s2 -> snd (fieldset_entries o key s2) = Ok ys) /\
    (names s o CList e -> list_items o s = (s1, Ok ys) -> goes_on s1 s2 -> snd (list_items o s2) = Ok ys).
  Proof. intros Hs. split; intro HN; [apply (entries_again c HD o e); auto|apply (items_again c HD o e); auto]. Qed.

  (** the classes with value accessors *)
  Lemma value_ends s o cl e : reach c s -> names s o cl e -> has_value cl -> ends (c_heap c) e.
  Proof.
    intros Hs (Ho & Hc & He) Hcl. apply (doc_ends _ HD). pose proof (oo_class _ _ _ _ (iv_obj _ _ (HR s Hs) o Ho)) as G. rewrite Hc, He in G.
    intro Et. rewrite Et in G. destruct Hcl as [-> |[-> | ->]]; discriminate G.
  Qed.
  Lemma value_loaded s o cl e : reach c s -> names s o cl e -> has_value cl ->
    exists v, value_text inp (c_heap c) e v /\ forall A (ld : loader A) req, snd (value_of o ld req s) = value_outcome c e ld req v.
  Proof.
    intros Hs HN Hcl. pose proof (value_ends s o cl e Hs HN Hcl) as He. destruct input_is as [<- _]. destruct (value_text_total c e He) as (v & Hv). exists v. split; [exact Hv|].
    intros A ld req. exact (value_outcome_is c o cl e ld req s v He (HR s Hs) HN Hv).
  Qed.
  Lemma comment_loaded s o cl e : reach c s -> names s o cl e ->
    exists v, comment_text (c_heap c) e v /\ forall A (ld : loader A) req, snd (comment_of o ld req s) = comment_outcome c e ld req v.
  Proof.
    intros Hs HN. destruct (comment_text_total c e) as (v & Hv). exists v. split; [exact Hv|].
    intros A ld req. exact (comment_outcome_is c o cl e ld req s v (HR s Hs) HN Hv).
  Qed.
  Lemma key_loaded s o cl e : reach c s -> names s o cl e ->
    (forall A (ld : loader A), snd (key_with o ld s) = key_outcome c e ld) /\ snd (string_key o s) = key_outcome c e string_loader.
  Proof.
    intros Hs HN. split; [intros A ld; exact (key_outcome_is c o cl e ld s (HR s Hs) HN)|].
    rewrite (string_key_is c o cl e s (HR s Hs) HN). unfold key_outcome. now destruct (read_key _ _).
  Qed.
  Lemma values_loaded s o e L : reach c s -> names s o CList e -> item_list (c_heap c) e L ->
    exists vs, Forall2 (value_text inp (c_heap c)) L vs /\ forall A (ld : loader A) req,
      in_turn (map (fun p => value_outcome c (fst p) ld req (snd p)) (combine L vs)) (snd (list_values o ld req s)).
  Proof.
    intros Hs HN HL. destruct input_is as [<- _]. assert (exists vs, Forall2 (value_text (c_input c) (c_heap c)) L vs) as (vs & Hvs).
    { pose proof (items_end c HD e L HL) as Hes. clear - Hes. induction L as [|x L IH]; [exists []; constructor|]. destruct IH as (vs & IH); [intros; apply Hes; now right|].
      destruct (value_text_total c x (Hes x (or_introl eq_refl))) as (v & Hv). exists (v :: vs). now constructor. }
    exists vs. split; [exact Hvs|]. intros A ld req. exact (list_values_is c HD o e ld req s L vs (HR s Hs) HN HL Hvs).
  Qed.
  Lemma value_text_one e v w : value_text inp (c_heap c) e v -> value_text inp (c_heap c) e w -> v = w.
  Proof. destruct input_is as [<- _]. apply value_text_fun. Qed.
  Lemma message_told m e er : loc = en \/ loc = de \/ loc = es ->
    (v_value_error c m e = Ok er -> contains (er_text er) m) /\ (v_comment_error c m e = Ok er -> contains (er_text er) m) /\ (v_key_error c m e = Ok er -> contains (er_text er) m).
  Proof.
    intro Hl. destruct input_is as [_ Hc]. rewrite <- Hc in Hl. destruct (told _ m Hl) as (T1 & T2 & T3).
    split; [|split]; intro E; [rewrite (value_error_text _ _ _ _ E)|rewrite (comment_error_text _ _ _ _ E)|rewrite (key_error_text _ _ _ _ E)]; assumption.
  Qed.

  Lemma errors_fixed s o cl e m : reach c s -> names s o cl e ->
    error_of o m s = (s, v_element_error c m e) /\ comment_error_of o m s = (s, v_comment_error c m e) /\
    key_error_of o m s = (s, v_key_error c m e) /\ value_error_of o m s = (s, v_value_error c m e).
  Proof.
    intros Hs (_ & _ & <-). pose proof (HR s Hs) as HI. assert (G : forall f, blind f -> f (s_ctx s) = f c).
    { intros f Hf. rewrite <- (Hf (s_ctx s)), (ctx_strip c s HI). apply Hf. }
    unfold error_of, comment_error_of, key_error_of, value_error_of, mbind, the_obj, the_ctx, lift.
    rewrite (G (fun c => v_element_error c m (o_instr (oget s o)))) by (intro; apply strip_element_error).
    rewrite (G (fun c => v_comment_error c m (o_instr (oget s o)))) by (intro; apply strip_comment_error).
    rewrite (G (fun c => v_key_error c m (o_instr (oget s o)))) by (intro; apply strip_key_error).
    rewrite (G (fun c => v_value_error c m (o_instr (oget s o)))) by (intro; apply strip_value_error). auto.
  Qed.
End Parsed.
