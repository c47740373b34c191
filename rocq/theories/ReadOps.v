(** ReadOps: histories of read accesses to a parsed document.  Model side only: every operation is
    an accessor of [Context.v], started with the fuel [Elements.v] gives it. *)
From Verif Require Import Base Types Reporter Context.

Inductive ask :=
| AskValue (e : nat) | AskComment (e : nat) | AskItems (e : nat) | AskEntries (e : nat)
| AskElements (e : nat) | AskRaw (e : nat).

Inductive answer :=
| AnsText (v : option text) | AnsList (l : list nat) | AnsElements (l : option (list nat)) | AnsRaw (x : raw_t).

Definition do_ask (inp : text) (a : ask) : hM answer :=
  let! h := get in
  let big := S (length h) in
  match a with
  | AskValue e => let! v := value inp big e in ret (AnsText v)
  | AskComment e => let! v := comment e in ret (AnsText v)
  | AskItems e => let! l := items big e in ret (AnsList l)
  | AskEntries e => let! l := entries big e in ret (AnsList l)
  | AskElements e => let! l := elements big e in ret (AnsElements l)
  | AskRaw e => let! x := raw inp big e in ret (AnsRaw x)
  end.

(** the answer in state [h] *)
Definition answered (inp : text) (a : ask) (h : heap) : res answer := snd (do_ask inp a h).
(** the state after asking all of [hist], whether or not an answer was an exception *)
Fixpoint after (inp : text) (hist : list ask) (h : heap) : heap :=
  match hist with [] => h | a :: hist' => after inp hist' (fst (do_ask inp a h)) end.

(** questions the program puts to an instruction of that type *)
Definition answerable (h : heap) (a : ask) : Prop :=
  match a with
  | AskValue e => n_type (hget h e) <> SECTION
  | AskItems e => n_type (hget h e) = LIST
  | AskEntries e => n_type (hget h e) = FIELDSET
  | AskComment _ => True
  | _ => False
  end.
