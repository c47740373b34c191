(** Context: model of [context.py] and [parse.py] (whole files).

    The accessors [comment], [elements], [entries], [items], [value] write their result into the
    instruction ('computed_*'), so they are functions from heap to heap; the heap is also returned
    when an exception is raised, since Python keeps the assignments made before it. *)
From Verif Require Import Base Types Messages Analyzer Resolver Reporter Errors.

(** State + exception monad. *)
Definition M (S A : Type) : Type := S -> S * res A.
Definition ret {S A} (a : A) : M S A := fun s => (s, Ok a).
Definition raise {S A} (e : exn) : M S A := fun s => (s, Raise e).
Definition mbind {S A B} (x : M S A) (f : A -> M S B) : M S B :=
  fun s => match x s with (s', Ok a) => f a s' | (s', Raise e) => (s', Raise e) end.
Definition lift {S A} (r : res A) : M S A := fun s => (s, r).
Definition get {S} : M S S := fun s => (s, Ok s).
Definition put {S} (s : S) : M S unit := fun _ => (s, Ok tt).
Notation "'let!' x := a 'in' b" := (mbind a (fun x => b)) (at level 200, x pattern, a at level 100, b at level 200).
Notation "a ;; b" := (mbind a (fun _ => b)) (at level 199, right associativity).
Fixpoint mapM {S A B} (f : A -> M S B) (l : list A) : M S (list B) :=
  match l with
  | [] => ret []
  | x :: l' => let! y := f x in let! ys := mapM f l' in ret (y :: ys)
  end.

(** context.py:8-18 and parse.py:4-7.  The document [Section] object is added by [Elements.v]. *)
Definition parse_context (inp : text) (loc : locale) (rk : reporter_kind) (source : option text)
  : res ctx :=
  let mk h meta lc := MkCtx inp loc rk source h meta lc in
  let fail c e := match parse_error c e with Ok x => Raise (ParseError x) | Raise x => Raise x end in
  match analyze inp with
  | AOk st lc =>
      let c := mk (a_heap st) (a_meta st) lc in
      match a_cs st, a_cn st with
      | [], [] => Ok c
      | _, _ =>
          match resolve (a_heap st) (a_cs st) (a_cn st) with
          | ROk h => Ok (mk h (a_meta st) lc)
          | RErr e h => fail (mk h (a_meta st) lc) e
          | RKey => Raise KeyError
          | RFuel => Raise Fuel
          end
      end
  | AErr e st lc => fail (mk (a_heap st) (a_meta st) lc) e
  | ACrash => Raise KeyError
  | AFuel => Raise Fuel
  end.

Definition hM := M heap.
Definition hset (i : nat) (f : node -> node) : hM unit := fun h => (hupd h i f, Ok tt).
Definition hnode (i : nat) : hM node := fun h => (h, Ok (hget h i)).

(** context.py:35: [comment['ranges']['comment'][BEGIN] - comment['ranges']['line'][BEGIN]] *)
Definition comment_indent (l : leaf) : nat :=
  match rget (l_ranges l) R_comment with
  | Some (b, _) => b - fst (line_range (l_ranges l))
  | None => 0
  end.

(** context.py:26-39: index, first/last non-empty index, shared indent ([None] = inf) *)
Definition scan_comments (cs : list leaf) : nat * option nat * option nat * nat :=
  fold_left (fun a l =>
    let '(i, first, shared, lst) := a in
    match l_text l with
    | None => (S i, first, shared, lst)
    | Some _ =>
        let ind := comment_indent l in
        (S i,
         match first with None => Some i | _ => first end,
         match shared with None => Some ind | Some s => if Nat.ltb ind s then Some ind else Some s end,
         i)
    end) cs (0, None, None, 0).

(** context.py:26-55, for two or more comment lines *)
Definition multi_comment (cs : list leaf) : option text :=
  let '(_, first, shared, lst) := scan_comments cs in
  match first with
  | None => None
  | Some f =>
      let sh := match shared with Some s => s | None => 0 end in
      Some (join [nl]
        (map (fun l =>
           match l_text l with
           | None => []
           | Some t =>
               if Nat.eqb (comment_indent l) sh then t
               else repeat 32%N (comment_indent l - sh) ++ t
           end) (firstn (lst + 1 - f) (skipn f cs))))
  end.

(** context.py:20-58 *)
Definition comment (e : nat) : hM (option text) :=
  let! n := hnode e in
  match n_ccomment n with
  | Some v => ret v
  | None =>
      match n_comments n with
      | None => hset e (set_ccomment (Some None)) ;; ret None
      | Some [x] =>
          match l_text x with
          | None => raise KeyError
          | Some t => hset e (set_ccomment (Some (Some t))) ;; ret (Some t)
          end
      | Some cs =>
          let v := multi_comment cs in hset e (set_ccomment (Some v)) ;; ret v
      end
  end.

Definition has_key (h : heap) (keys : list nat) (e : nat) : bool :=
  existsb (fun x => text_eqb (key_of h e) (key_of h x)) keys.

(** context.py:60-85; the result [None] is Python's None (missing [return], line 62) *)
Fixpoint elements (fuel : nat) (s : nat) : hM (option (list nat)) :=
  match fuel with
  | O => raise Fuel
  | S f =>
      let! n := hnode s in
      match n_mirror n with
      | Some m => let! _ := elements f m in ret None
      | None =>
          match n_cels n with
          | Some l => ret (Some l)
          | None =>
              let own := n_elements n in
              hset s (set_cels (Some own)) ;;
              match n_extend n with
              | None => ret (Some own)
              | Some t =>
                  let! r := elements f t in
                  match r with
                  | None => raise TypeError
                  | Some l =>
                      let! h := get in
                      let copied := filter (fun e => negb (has_key h own e)) l in
                      let res := copied ++ own in
                      hset s (set_cels (Some res)) ;; ret (Some res)
                  end
              end
          end
      end
  end.

(** context.py:87-112 *)
Fixpoint entries (fuel : nat) (s : nat) : hM (list nat) :=
  match fuel with
  | O => raise Fuel
  | S f =>
      let! n := hnode s in
      match n_mirror n with
      | Some m => entries f m
      | None =>
          match n_centries n with
          | Some l => ret l
          | None =>
              let! own := lift (key_or (n_entries n)) in
              hset s (set_centries (Some own)) ;;
              match n_extend n with
              | None => ret own
              | Some t =>
                  let! l := entries f t in
                  let! h := get in
                  let copied := filter (fun e => negb (has_key h own e)) l in
                  let res := copied ++ own in
                  hset s (set_centries (Some res)) ;; ret res
              end
          end
      end
  end.

(** context.py:114-127 *)
Fixpoint items (fuel : nat) (s : nat) : hM (list nat) :=
  match fuel with
  | O => raise Fuel
  | S f =>
      let! n := hnode s in
      match n_mirror n with
      | Some m => items f m
      | None =>
          match n_extend n with
          | Some t =>
              match n_citems n with
              | Some l => ret l
              | None =>
                  let! l := items f t in
                  let! own := lift (key_or (n_items n)) in
                  hset s (set_citems (Some (l ++ own))) ;; ret (l ++ own)
              end
          | None => match n_items n with Some l => ret l | None => ret [] end
          end
      end
  end.

(** context.py:178-193: the continuation loop; [v] = computed value, [sp] = unapplied_spacing *)
Fixpoint join_conts (v : option text) (sp : bool) (cs : list leaf) : option text :=
  match cs with
  | [] => v
  | c :: cs' =>
      match v, l_text c with
      | None, x => join_conts x false cs'
      | Some v, None => join_conts (Some v) (sp || l_spaced c) cs'
      | Some v, Some x =>
          if l_spaced c || sp then join_conts (Some (v ++ 32%N :: x)) false cs'
          else join_conts (Some (v ++ x)) sp cs'
      end
  end.

(** context.py:169-193 *)
Definition own_value (inp : text) (n : node) : option text :=
  match n_type n with
  | MULTILINE_FIELD_BEGIN =>
      match n_lines n with
      | Some (l :: ls) =>
          Some (slice inp (fst (line_range (l_ranges l)))
                          (snd (line_range (l_ranges (last ls l)))))
      | _ => None
      end
  | _ => match n_conts n with Some cs => join_conts (n_value n) false cs | None => n_value n end
  end.

(** context.py:162-195 *)
Fixpoint value (inp : text) (fuel : nat) (e : nat) : hM (option text) :=
  match fuel with
  | O => raise Fuel
  | S f =>
      let! n := hnode e in
      match n_cvalue n with
      | Some v => ret v
      | None =>
          match n_mirror n with
          | Some m => value inp f m
          | None =>
              let v := own_value inp n in
              hset e (set_cvalue (Some v)) ;; ret v
          end
      end
  end.

(** The dicts built by raw(); the 'type' entry is given by the constructor, 'comment' is present
    iff the first argument is [Some]. *)
Inductive raw_t :=
| RawEmpty (comment : option (option text)) (key : text)
| RawField (comment : option (option text)) (key : text) (value : option text)
| RawItem (comment : option (option text)) (value : option text)
| RawEntry (comment : option (option text)) (key : text) (value : option text)
| RawList (comment : option (option text)) (key : text) (items : list raw_t)
| RawFieldset (comment : option (option text)) (key : text) (entries : list raw_t)
| RawSection (comment : option (option text)) (key : text) (elements : list raw_t)
| RawDocument (elements : list raw_t)
| RawOther (comment : option (option text)).   (* any other type: only 'type' (and 'comment') *)

(** context.py:129-160 *)
Fixpoint raw (inp : text) (fuel : nat) (e : nat) : hM raw_t :=
  match fuel with
  | O => raise Fuel
  | S f =>
      let! h := get in
      let big := S (length h) in
      let! n := hnode e in
      let! c := match n_comments n with
                | Some _ => let! v := comment e in ret (Some v)
                | None => ret None
                end in
      let key := lift (key_or (n_key n)) in
      match n_type n with
      | EMPTY_ELEMENT => let! k := key in ret (RawEmpty c k)
      | FIELD | MULTILINE_FIELD_BEGIN =>
          let! k := key in let! v := value inp big e in ret (RawField c k v)
      | LIST_ITEM => let! v := value inp big e in ret (RawItem c v)
      | FIELDSET_ENTRY => let! k := key in let! v := value inp big e in ret (RawEntry c k v)
      | LIST =>
          let! k := key in let! l := items big e in
          let! rs := mapM (raw inp f) l in ret (RawList c k rs)
      | FIELDSET =>
          let! k := key in let! l := entries big e in
          let! rs := mapM (raw inp f) l in ret (RawFieldset c k rs)
      | SECTION =>
          let! k := key in let! l := elements big e in
          match l with
          | None => raise TypeError
          | Some l => let! rs := mapM (raw inp f) l in ret (RawSection c k rs)
          end
      | DOCUMENT =>
          let! l := elements big e in
          match l with
          | None => raise TypeError
          | Some l => let! rs := mapM (raw inp f) l in ret (RawDocument rs)
          end
      | _ => ret (RawOther c)
      end
  end.
