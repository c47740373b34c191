(** ShowExamples: concrete printed objects. *)
From Verif Require Import Base Types Messages Reporter Errors Context Elements SpecTree SpecRead SpecApi SpecQuery SpecLoad SpecNumber SpecShow Session SessionRun QueryExamples CopiesExamples.

Definition p_doc : text := U "# chapter
title: a title that is too long
tags:
- one
- two
pairs:
x = 1
y =
nothing:
# copy < chapter
more: 1".
(** the section copy is object 3; its copied elements are objects 4 to 8, read as objects 9, 10, ... *)
Definition p_calls : list call :=
  [Query (Some KSection) 0 (key_named "copy") None; Query (Some KField) 3 (key_named "title") None; Query (Some KList) 3 (key_named "tags") None;
   Query (Some KFieldset) 3 (key_named "pairs") None; Query (Some KEmpty) 3 (key_named "nothing") None; ListItems 10; QueryEntry 11 (key_named "y") None].
Lemma p_parsed : parse_context p_doc en TextReporter None = Ok (ctx_of p_doc). Proof. vm_compute. reflexivity. Qed.
Lemma p_ends e : ends (c_heap (ctx_of p_doc)) e. Proof. apply all_end_true. vm_compute. reflexivity. Qed.
Lemma p_reach : reach (ctx_of p_doc) (session p_doc p_calls). Proof. apply session_reach. vm_compute. reflexivity. Qed.
Lemma p_shown : let s := session p_doc p_calls in map (fun o => snd (print_of o s)) [0; 2; 3; 4; 9; 10; 11; 12; 13; 16] =
  map (fun t => Ok (U t)) ["<class Section document elements=2>"; "<class SectionElement key=copy>"; "<class Section key=""copy"" elements=5>"; "<class SectionElement key=more>";
    "<class Field key=title value=a title tha...>"; "<class List key=tags items=2>"; "<class Fieldset key=pairs entries=2>"; "<class Empty key=nothing>"; "<class ListItem value=one>"; "<class FieldsetEntry key=y value=None>"]%string.
Proof. vm_compute. reflexivity. Qed.
Lemma p_names : let s := session p_doc p_calls in is_obj s 9 CField 2 (Some 3) /\ is_obj s 13 CItem 4 (Some 10) /\ is_obj s 16 CEntry 8 (Some 11) /\ is_obj s 3 CSection 10 (Some 0) /\ names s 3 CSection 10.
Proof.
  assert (L : length (s_objs (session p_doc p_calls)) = 17) by (vm_compute; reflexivity). cbv zeta. unfold is_obj, names. rewrite L.
  repeat (split; [first [lia|vm_compute; reflexivity | (split; [lia|]; repeat (split; [vm_compute; reflexivity|]); vm_compute; reflexivity)]|]). vm_compute. reflexivity.
Qed.
(** looking things up: a list item and the document can not be printed *)
Definition item_doc : text := U "tags:
- one".
Lemma item_parsed : parse_context item_doc en TextReporter None = Ok (ctx_of item_doc). Proof. vm_compute. reflexivity. Qed.
Definition item_found : st := MkSt (ctx_of item_doc) [start_obj CElement 2].
Lemma item_reach : reach (ctx_of item_doc) item_found.
Proof. exists item_found. split; [apply be_lookup; apply Nat.ltb_lt; vm_compute; reflexivity|constructor]. Qed.
Lemma item_names : names item_found 0 CElement 2 /\ n_type (hget (c_heap (ctx_of item_doc)) 2) = LIST_ITEM.
Proof. split; [split; [apply Nat.ltb_lt; vm_compute; reflexivity|split; vm_compute; reflexivity]|vm_compute; reflexivity]. Qed.
Lemma item_unshown : snd (print_of 0 item_found) = Raise KeyError. Proof. vm_compute. reflexivity. Qed.
(** looking a list up and reading it as one *)
Definition list_found : st := run_calls [Yield KList 0] (MkSt (ctx_of item_doc) [start_obj CElement 1]).
Lemma list_reach : reach (ctx_of item_doc) list_found.
Proof. exists (MkSt (ctx_of item_doc) [start_obj CElement 1]). split; [apply be_lookup; apply Nat.ltb_lt; vm_compute; reflexivity|apply good_goes; vm_compute; reflexivity]. Qed.
Lemma list_names : is_obj list_found 1 CList 1 None /\ snd (parent_of 1 list_found) = Ok (Some 2) /\ snd (parent_of 1 (fst (parent_of 1 list_found))) = Ok (Some 3).
Proof. split; [split; [apply Nat.ltb_lt; vm_compute; reflexivity|repeat (split; [vm_compute; reflexivity|]); vm_compute; reflexivity]|split; vm_compute; reflexivity]. Qed.
Lemma section_parent : let s := session p_doc p_calls in snd (parent_of 3 s) = Ok None /\ snd (parent_of 9 s) = Ok (Some 3) /\ snd (parent_of 13 s) = Ok (Some 10) /\ snd (parent_of 16 s) = Ok (Some 11) /\
  snd (parent_of 0 s) = Raise KeyError.
Proof. cbv zeta. repeat (split; [vm_compute; reflexivity|]). vm_compute. reflexivity. Qed.
(** a section with an endless chain of links *)
Lemma loop_print : names (session loop_doc loop_calls) 5 CSection 2 /\ ~ ends (c_heap (ctx_of loop_doc)) 2 /\ o_children (oget (session loop_doc loop_calls) 5) = None /\
  snd (print_of 4 (session loop_doc loop_calls)) = Ok (U "<class SectionElement key=x>").
Proof.
  split; [split; [apply Nat.ltb_lt; vm_compute; reflexivity|split; vm_compute; reflexivity]|]. split; [|split; vm_compute; reflexivity].
  rewrite loop_heap_is. intro E. now apply loop_links in E.
Qed.
(** something missing *)
Lemma p_missing : exists m m', snd (query (Some KSection) 0 (key_named "gone") None (session p_doc p_calls)) = Ok (FMissing m) /\
  snd (missing_query None m None None (session p_doc p_calls)) = Ok (FMissing m') /\
  print_missing m = U "<class MissingSection key=gone>" /\ print_missing m' = U "<class MissingSectionElement>" /\ print_missing (missing_to_kind KList m') = U "<class MissingList>".
Proof.
  exists (Missing MKSection (key_named "gone") (PObject 0)), (Missing MKElement None (PMissing (Missing MKSection (key_named "gone") (PObject 0)))).
  repeat split; vm_compute; reflexivity.
Qed.
