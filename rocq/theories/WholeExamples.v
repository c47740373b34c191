(** WholeExamples: a document for PropWhole. *)
From Verif Require Import Base Types Messages Resolver ResolverIndex ResolverFinal Reporter Errors Context Elements SpecTree SpecResolve SpecRead SpecApi SpecQuery SpecLoad Session SessionRun
  PropParseProofs QueryExamples InheritExamples SpecWhole.

(** [n] copies [m], which adds to [l]; [h] copies [g], which adds to [f] and redefines [y] *)
Definition whole_doc : text := U "l:
- 1
m < l
- 2
n < m
- 3
f:
x = 1
y = 2
g < f
y = 3
h < g
z = 4
x = 5".
Definition whole_calls : list call := [Query (Some KList) 0 (key_named "n") None; Query (Some KFieldset) 0 (key_named "h") None].
Definition whole_heap : heap := Eval vm_compute in c_heap (ctx_of whole_doc).
Lemma whole_is : c_heap (ctx_of whole_doc) = whole_heap. Proof. vm_compute. reflexivity. Qed.
Ltac tpl k := apply (template_by _ _ _ k); [split; [apply Nat.ltb_lt; vm_compute; reflexivity|split; [vm_compute; exact I|vm_compute; reflexivity]]|vm_compute; reflexivity].
Lemma whole_lists : whole_items whole_heap 5 [2; 4; 6] /\ whole_entries whole_heap 12 [11; 13; 14].
Proof.
  split.
  - apply (wi_copy whole_heap 5 3 [2; 4]); [tpl (U "m")|]. apply (wi_copy whole_heap 3 1 [2]); [tpl (U "l")|]. apply (wi_own whole_heap 1). vm_compute. reflexivity.
  - apply (we_copy whole_heap 12 10 [8; 11] [11]); [tpl (U "g")| |].
    + apply (we_copy whole_heap 10 7 [8; 9] [8]); [tpl (U "f")|apply (we_own whole_heap 7); vm_compute; reflexivity|].
      apply wo_keep; [|apply wo_drop; [|constructor]].
      * intros (y & Hy & K). vm_compute in Hy. destruct Hy as [<-|[]]. vm_compute in K. discriminate K.
      * exists 11. split; [vm_compute; tauto|vm_compute; reflexivity].
    + apply wo_drop; [|apply wo_keep; [|constructor]].
      * exists 14. split; [vm_compute; tauto|vm_compute; reflexivity].
      * intros (y & Hy & K). vm_compute in Hy. destruct Hy as [<-|[<-|[]]]; vm_compute in K; discriminate K.
Qed.
Lemma whole_sample : parse_context whole_doc en TextReporter None = Ok (ctx_of whole_doc) /\ reach (ctx_of whole_doc) (session whole_doc whole_calls) /\
  names (session whole_doc whole_calls) 7 CList 5 /\ names (session whole_doc whole_calls) 8 CFieldset 12 /\
  whole_items (c_heap (ctx_of whole_doc)) 5 [2; 4; 6] /\ whole_entries (c_heap (ctx_of whole_doc)) 12 [11; 13; 14] /\
  (exists a b d, snd (list_items 7 (session whole_doc whole_calls)) = Ok [a; b; d]) /\
  exists a, snd (fieldset_entries 8 (key_named "y") (session whole_doc whole_calls)) = Ok [a].
Proof.
  rewrite whole_is. split; [vm_compute; reflexivity|]. split; [apply session_reach; vm_compute; reflexivity|].
  split; [split; [apply Nat.ltb_lt; vm_compute; reflexivity|split; vm_compute; reflexivity]|].
  split; [split; [apply Nat.ltb_lt; vm_compute; reflexivity|split; vm_compute; reflexivity]|].
  split; [apply whole_lists|]. split; [apply whole_lists|]. split; [do 3 eexists|eexists]; vm_compute; reflexivity.
Qed.

Definition barecopy_doc : text := U "a: 1
\ 2
b < a
c < b".
Definition barecopy_calls : list call := [Query (Some KField) 0 (key_named "c") None].
Definition barecopy_heap : heap := Eval vm_compute in c_heap (ctx_of barecopy_doc).
Lemma barecopy_is : c_heap (ctx_of barecopy_doc) = barecopy_heap. Proof. vm_compute. reflexivity. Qed.
Lemma barecopy_value : whole_value barecopy_doc barecopy_heap 3 (Some (U "1 2")).
Proof.
  apply (wv_copy _ _ 3 2); [tpl (U "b")|]. apply (wv_copy _ _ 2 1); [tpl (U "a")|]. apply wv_own; [vm_compute; reflexivity|].
  unfold plain_value. replace (n_type (hget barecopy_heap 1)) with FIELD by (vm_compute; reflexivity).
  replace (parts (hget barecopy_heap 1)) with ([] ++ (Some (U "1"), false) :: [(Some (U "2"), true)]) by (vm_compute; reflexivity).
  replace (U "1 2") with (U "1" ++ (32%N :: U "2" ++ [])) by (vm_compute; reflexivity).
  constructor; [constructor|]. apply (jr_space [] (U "2") true [] []); [constructor|now left|]. constructor. constructor.
Qed.
Lemma barecopy_sample : parse_context barecopy_doc en TextReporter None = Ok (ctx_of barecopy_doc) /\ reach (ctx_of barecopy_doc) (session barecopy_doc barecopy_calls) /\
  names (session barecopy_doc barecopy_calls) 4 CField 3 /\ whole_value barecopy_doc (c_heap (ctx_of barecopy_doc)) 3 (Some (U "1 2")) /\
  snd (value_of 4 string_loader true (session barecopy_doc barecopy_calls)) = Ok (Some (U "1 2")).
Proof.
  rewrite barecopy_is. split; [vm_compute; reflexivity|]. split; [apply session_reach; vm_compute; reflexivity|].
  split; [split; [apply Nat.ltb_lt; vm_compute; reflexivity|split; vm_compute; reflexivity]|]. split; [exact barecopy_value|]. vm_compute. reflexivity.
Qed.
