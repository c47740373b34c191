(** PropShow: C51 and C52.  Each theorem is closed by its lemma. *)
From Verif Require Import Base Types Messages Resolver Reporter Errors Context Elements SpecTree SpecResolve SpecRead SpecApi SpecQuery SpecLoad SpecNumber SpecShow Session SessionRun QueryExamples CopiesExamples ShowProofs ShowExamples.

(** * C51 *)

(** An object is printed as its class, its key and the number of its members or its value, in every
    state of every session; printing fails only for what [lookup] finds and has no key, and for
    sections with an endless chain of links. *)
Theorem C51_shown : forall inp loc rk src c, parse_context inp loc rk src = Ok c ->
  forall s o cl e, reach c s -> names s o cl e -> (cl = CSection -> ends (c_heap c) e) -> (cl = CElement -> n_key (hget (c_heap c) e) <> None) ->
  exists t, snd (print_of o s) = Ok t /\ shows inp (c_heap c) e cl t.
Proof. intros inp loc rk src c H. exact (shows_any H). Qed.
Print Assumptions C51_shown.

(** What is shown does not depend on the state. *)
Theorem C51_always_the_same : forall inp loc rk src c, parse_context inp loc rk src = Ok c ->
  forall s s' o cl e, reach c s -> goes_on s s' -> names s o cl e -> (cl = CSection -> ends (c_heap c) e) -> snd (print_of o s') = snd (print_of o s).
Proof. intros inp loc rk src c H. exact (shows_same H). Qed.
Print Assumptions C51_always_the_same.

(** There is just one text that shows an instruction as an object of a class. *)
Theorem C51_one_text : forall inp loc rk src c, parse_context inp loc rk src = Ok c ->
  forall e cl t u, shows inp (c_heap c) e cl t -> shows inp (c_heap c) e cl u -> t = u.
Proof. intros inp loc rk src c H. exact (shows_one H). Qed.
Print Assumptions C51_one_text.

(** Sections with an endless chain of links (C26) can not be printed before their elements were asked for. *)
Theorem C51_endless : forall inp loc rk src c, parse_context inp loc rk src = Ok c ->
  forall s o e, reach c s -> names s o CSection e -> ~ ends (c_heap c) e -> o_children (oget s o) = None -> snd (print_of o s) = Raise Fuel.
Proof. intros inp loc rk src c H. exact (shows_never H). Qed.
Print Assumptions C51_endless.

(** What was not found is printed as the class and the key that were asked for, whether asked of an
    object or of something missing itself, or read as another class afterwards. *)
Theorem C51_missing : forall s m what key required,
  (forall o, snd (query what o key required s) = Ok (FMissing m) -> shows_missing (asked what) key (print_missing m)) /\
  (forall o, snd (entry_query o key required s) = Ok (FMissing m) -> shows_missing (U "FieldsetEntry") key (print_missing m)) /\
  (forall m0, snd (missing_query what m0 key required s) = Ok (FMissing m) -> shows_missing (asked what) key (print_missing m)) /\
  (forall m0, snd (missing_entry m0 key required s) = Ok (FMissing m) -> shows_missing (U "FieldsetEntry") key (print_missing m)) /\
  (forall o k, snd (query what o key required s) = Ok (FMissing m) -> shows_missing (asked (Some k)) key (print_missing (missing_to_kind k m))).
Proof. exact all_missing. Qed.
Print Assumptions C51_missing.

(** List items and the document can not be printed when they were looked up. *)
Theorem C51_looked_up_refuted : exists inp c s e, parse_context inp en TextReporter None = Ok c /\ reach c s /\ names s 0 CElement e /\
  n_type (hget (c_heap c) e) = LIST_ITEM /\ snd (print_of 0 s) = Raise KeyError.
Proof. exists item_doc, (ctx_of item_doc), item_found, 2. exact (conj item_parsed (conj item_reach (conj (proj1 item_names) (conj (proj2 item_names) item_unshown)))). Qed.
Print Assumptions C51_looked_up_refuted.

Example C51_session : parse_context p_doc en TextReporter None = Ok (ctx_of p_doc) /\ (forall e, ends (c_heap (ctx_of p_doc)) e) /\ reach (ctx_of p_doc) (session p_doc p_calls) /\
  is_obj (session p_doc p_calls) 9 CField 2 (Some 3) /\ names (session p_doc p_calls) 3 CSection 10.
Proof. exact (conj p_parsed (conj p_ends (conj p_reach (conj (proj1 p_names) (proj2 (proj2 (proj2 (proj2 p_names)))))))). Qed.
Example C51_texts : let s := session p_doc p_calls in map (fun o => snd (print_of o s)) [0; 2; 3; 4; 9; 10; 11; 12; 13; 16] =
  map (fun t => Ok (U t)) ["<class Section document elements=2>"; "<class SectionElement key=copy>"; "<class Section key=""copy"" elements=5>"; "<class SectionElement key=more>";
    "<class Field key=title value=a title tha...>"; "<class List key=tags items=2>"; "<class Fieldset key=pairs entries=2>"; "<class Empty key=nothing>"; "<class ListItem value=one>"; "<class FieldsetEntry key=y value=None>"]%string.
Proof. exact p_shown. Qed.
Example C51_loop : parse_context loop_doc en TextReporter None = Ok (ctx_of loop_doc) /\ reach (ctx_of loop_doc) (session loop_doc loop_calls) /\
  names (session loop_doc loop_calls) 5 CSection 2 /\ ~ ends (c_heap (ctx_of loop_doc)) 2 /\ o_children (oget (session loop_doc loop_calls) 5) = None /\
  snd (print_of 4 (session loop_doc loop_calls)) = Ok (U "<class SectionElement key=x>").
Proof. exact (conj loop_parsed (conj loop_reach loop_print)). Qed.
Example C51_not_there : exists m m', snd (query (Some KSection) 0 (key_named "gone") None (session p_doc p_calls)) = Ok (FMissing m) /\
  snd (missing_query None m None None (session p_doc p_calls)) = Ok (FMissing m') /\
  print_missing m = U "<class MissingSection key=gone>" /\ print_missing m' = U "<class MissingSectionElement>" /\ print_missing (missing_to_kind KList m') = U "<class MissingList>".
Proof. exact p_missing. Qed.

(** * C52 *)

(** What a section, fieldset or list hands out (an object [y] with [Some p] in C28, C29, C31) has that
    very object as its parent(), from then on. *)
Theorem C52_parent_partial : forall inp loc rk src c, parse_context inp loc rk src = Ok c ->
  forall s y cl e p s', reach c s -> is_obj s y cl e (Some p) -> owned cl -> goes_on s s' -> parent_of y s' = (s', Ok (Some p)).
Proof. intros inp loc rk src c H. exact (parent_kept H). Qed.
Print Assumptions C52_parent_partial.

(** ... by the queries themselves; a section has no parent(). *)
Theorem C52_queried : forall inp loc rk src c, parse_context inp loc rk src = Ok c ->
  forall s o x k key q s1 y s', reach c s -> names s o CSection x -> ends (c_heap c) x -> query (Some k) o key q s = (s1, Ok (FObj y)) -> goes_on s1 s' ->
  parent_of y s' = (s', Ok (match k with KSection => None | _ => Some o end)).
Proof. intros inp loc rk src c H. exact (parent_query H). Qed.
Print Assumptions C52_queried.
Theorem C52_queried_entry : forall inp loc rk src c, parse_context inp loc rk src = Ok c ->
  forall s o x key q s1 y s', reach c s -> names s o CFieldset x -> entry_query o key q s = (s1, Ok (FObj y)) -> goes_on s1 s' -> parent_of y s' = (s', Ok (Some o)).
Proof. intros inp loc rk src c H. exact (parent_entry H). Qed.
Print Assumptions C52_queried_entry.
Theorem C52_listed_item : forall inp loc rk src c, parse_context inp loc rk src = Ok c ->
  forall s o x s1 ys y s', reach c s -> names s o CList x -> list_items o s = (s1, Ok ys) -> In y ys -> goes_on s1 s' -> parent_of y s' = (s', Ok (Some o)).
Proof. intros inp loc rk src c H. exact (parent_item H). Qed.
Print Assumptions C52_listed_item.

(** The parent lists it: it is one of the members of the parent, by its own or by copying. *)
Theorem C52_member : forall inp loc rk src c, parse_context inp loc rk src = Ok c ->
  forall s y cl e p, reach c s -> is_obj s y cl e (Some p) -> owned cl -> exists a, names s p (owner cl) a /\ (ends (c_heap c) a -> member_of (c_heap c) cl a e).
Proof. intros inp loc rk src c H. exact (parent_owner H). Qed.
Print Assumptions C52_member.

(** parent() of a section is None, and that of the document fails. *)
Theorem C52_sections : forall inp loc rk src c, parse_context inp loc rk src = Ok c ->
  forall s y e, reach c s -> names s y CSection e ->
  (n_type (hget (c_heap c) e) <> DOCUMENT -> parent_of y s = (s, Ok None)) /\ (n_type (hget (c_heap c) e) = DOCUMENT -> parent_of y s = (s, Raise KeyError)).
Proof. intros inp loc rk src c H. exact (parent_section H). Qed.
Print Assumptions C52_sections.
Theorem C52_section_refuted : exists inp c s y e p, parse_context inp en TextReporter None = Ok c /\ reach c s /\ is_obj s y CSection e (Some p) /\ snd (parent_of y s) = Ok None.
Proof.
  exists p_doc, (ctx_of p_doc), (session p_doc p_calls), 3, 10, 0.
  exact (conj p_parsed (conj p_reach (conj (proj1 (proj2 (proj2 (proj2 p_names)))) (proj1 section_parent)))).
Qed.
Print Assumptions C52_section_refuted.

(** Fieldsets and lists that were looked up get a new section object every time; fields and empty
    elements fail. *)
Theorem C52_looked_up : forall inp loc rk src c, parse_context inp loc rk src = Ok c ->
  forall s y cl e, reach c s -> is_obj s y cl e None ->
  (cl = CFieldset \/ cl = CList -> exists a s', n_parent (hget (c_heap c) e) = Some a /\ parent_of y s = (s', Ok (Some (length (s_objs s)))) /\ is_obj s' (length (s_objs s)) CSection a None) /\
  (cl = CField \/ cl = CEmpty -> parent_of y s = (s, Raise AttributeError)).
Proof. intros inp loc rk src c H. exact (parent_looked_up H). Qed.
Print Assumptions C52_looked_up.

Example C52_session : parse_context p_doc en TextReporter None = Ok (ctx_of p_doc) /\ reach (ctx_of p_doc) (session p_doc p_calls) /\
  is_obj (session p_doc p_calls) 9 CField 2 (Some 3) /\ is_obj (session p_doc p_calls) 13 CItem 4 (Some 10) /\ is_obj (session p_doc p_calls) 16 CEntry 8 (Some 11).
Proof. exact (conj p_parsed (conj p_reach (conj (proj1 p_names) (conj (proj1 (proj2 p_names)) (proj1 (proj2 (proj2 p_names))))))). Qed.
Example C52_parents : let s := session p_doc p_calls in snd (parent_of 3 s) = Ok None /\ snd (parent_of 9 s) = Ok (Some 3) /\ snd (parent_of 13 s) = Ok (Some 10) /\ snd (parent_of 16 s) = Ok (Some 11) /\
  snd (parent_of 0 s) = Raise KeyError.
Proof. exact section_parent. Qed.
Example C52_found : reach (ctx_of item_doc) list_found /\ is_obj list_found 1 CList 1 None /\
  snd (parent_of 1 list_found) = Ok (Some 2) /\ snd (parent_of 1 (fst (parent_of 1 list_found))) = Ok (Some 3).
Proof. exact (conj list_reach list_names). Qed.
