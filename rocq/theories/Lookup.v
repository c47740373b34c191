(** Lookup: model of [lookup.py] (whole file). *)
From Coq Require Import ZArith.
From Verif Require Import Base Types Messages Analyzer Resolver Reporter Errors Context.

(** { 'element': ..., 'instruction': ... }; a check returns [None] for Python's False or None. *)
Record lmatch := MkL { lm_element : nat; lm_instr : option ins }.

Definition lb (n : node) : nat := fst (line_range (n_ranges n)).
Definition le_ (n : node) : nat := snd (line_range (n_ranges n)).
Definition llb (l : leaf) : nat := fst (line_range (l_ranges l)).
Definition lle (l : leaf) : nat := snd (line_range (l_ranges l)).

Section H.
  Variable h : heap.
  Let node i := hget h i.
  Definition here (i : nat) : lmatch := MkL i (Some (node_ins (node i))).
  Definition there (i : nat) (l : leaf) : lmatch := MkL i (Some (leaf_ins l)).
  Definition nowhere (i : nat) : lmatch := MkL i None.

  Definition opt_leaf (o : option leaf) : option ins := match o with Some l => Some (leaf_ins l) | None => None end.

  (** lookup.py:5-18 *)
  Definition check_multiline_by_line (f line : nat) : res (option lmatch) :=
    let n := node f in
    do e <- key_or (n_end n);
    if Nat.ltb line (n_line n) || Nat.ltb (l_line e) line then Ok None
    else if Nat.eqb line (n_line n) then Ok (Some (here f))
    else if Nat.eqb line (l_line e) then Ok (Some (there f e))
    else do ls <- key_or (n_lines n);
         Ok (Some (MkL f (opt_leaf (find (fun l => Nat.eqb (l_line l) line) ls)))).

  (** lookup.py:20-33 *)
  Definition check_multiline_by_index (f index : nat) : res (option lmatch) :=
    let n := node f in
    do e <- key_or (n_end n);
    if Nat.ltb index (lb n) || Nat.ltb (lle e) index then Ok None
    else if Nat.leb index (le_ n) then Ok (Some (here f))
    else if Nat.leb (llb e) index then Ok (Some (there f e))
    else do ls <- key_or (n_lines n);
         Ok (Some (MkL f (opt_leaf (find (fun l => Nat.leb index (lle l)) ls)))).

  (** lookup.py:35-49 *)
  Definition check_field_by_line (f line : nat) : res (option lmatch) :=
    let n := node f in
    if Nat.ltb line (n_line n) then Ok None
    else if Nat.eqb line (n_line n) then Ok (Some (here f))
    else
      match n_conts n with
      | None => Ok None
      | Some cs =>
          do z <- last_of cs;
          if Nat.ltb (l_line z) line then Ok None
          else
            Ok ((fix go cs :=
                   match cs with
                   | [] => None
                   | c :: cs' =>
                       if Nat.eqb line (l_line c) then Some (there f c)
                       else if Nat.ltb line (l_line c) then Some (nowhere f)
                       else go cs'
                   end) cs)
      end.

  (** lookup.py:51-65 *)
  Definition check_field_by_index (f index : nat) : res (option lmatch) :=
    let n := node f in
    if Nat.ltb index (lb n) then Ok None
    else if Nat.leb index (le_ n) then Ok (Some (here f))
    else
      match n_conts n with
      | None => Ok None
      | Some cs =>
          do z <- last_of cs;
          if Nat.ltb (lle z) index then Ok None
          else
            Ok ((fix go cs :=
                   match cs with
                   | [] => None
                   | c :: cs' =>
                       if Nat.ltb index (llb c) then Some (nowhere f)
                       else if Nat.leb index (lle c) then Some (there f c)
                       else go cs'
                   end) cs)
      end.

  (** lookup.py:67-86 and 109-128: fieldset / list; [children] are the entries / items *)
  Definition check_group_by_line (g : nat) (children : option (list nat)) (line : nat) : res (option lmatch) :=
    let n := node g in
    if Nat.ltb line (n_line n) then Ok None
    else if Nat.eqb line (n_line n) then Ok (Some (here g))
    else
      match children with
      | None => Ok None
      | Some es =>
          do z <- last_of es;
          if Nat.ltb (n_line (node z)) line then Ok None
          else
            (fix go es :=
               match es with
               | [] => Ok None
               | e :: es' =>
                   if Nat.eqb line (n_line (node e)) then Ok (Some (here e))
                   else if Nat.ltb line (n_line (node e)) then Ok (Some (nowhere g))
                   else
                     do r <- check_field_by_line e line;
                     match r with Some m => Ok (Some m) | None => go es' end
               end) es
      end.

  (** lookup.py:88-107 and 130-149 *)
  Definition check_group_by_index (g : nat) (children : option (list nat)) (index : nat) : res (option lmatch) :=
    let n := node g in
    if Nat.ltb index (lb n) then Ok None
    else if Nat.leb index (le_ n) then Ok (Some (here g))
    else
      match children with
      | None => Ok None
      | Some es =>
          do z <- last_of es;
          if Nat.ltb (le_ (node z)) index then Ok None
          else
            (fix go es :=
               match es with
               | [] => Ok None
               | e :: es' =>
                   if Nat.ltb index (lb (node e)) then Ok (Some (nowhere g))
                   else if Nat.leb index (le_ (node e)) then Ok (Some (here e))
                   else
                     do r <- check_field_by_index e index;
                     match r with Some m => Ok (Some m) | None => go es' end
               end) es
      end.

  (** lookup.py:151-181: the first element (from the end) that does not start after the line
      decides. *)
  Fixpoint check_in_section_by_line (fuel s line : nat) : res lmatch :=
    match fuel with
    | O => Raise Fuel
    | S f =>
        match find (fun e => negb (Nat.ltb line (n_line (node e)))) (rev (n_elements (node s))) with
        | None => Ok (nowhere s)
        | Some e =>
            let n := node e in
            let or_section r := do r <- r; match r with Some m => Ok m | None => Ok (nowhere s) end in
            if Nat.eqb (n_line n) line then Ok (here e)
            else
              match n_type n with
              | FIELD => or_section (check_field_by_line e line)
              | FIELDSET => or_section (check_group_by_line e (n_entries n) line)
              | LIST => or_section (check_group_by_line e (n_items n) line)
              | MULTILINE_FIELD_BEGIN =>
                  if opt_is (n_template n) then Ok (nowhere s)
                  else or_section (check_multiline_by_line e line)
              | SECTION => check_in_section_by_line f e line
              | _ => Ok (nowhere s)
              end
        end
    end.

  (** lookup.py:183-213 *)
  Fixpoint check_in_section_by_index (fuel s index : nat) : res lmatch :=
    match fuel with
    | O => Raise Fuel
    | S f =>
        match find (fun e => negb (Nat.ltb index (lb (node e)))) (rev (n_elements (node s))) with
        | None => Ok (nowhere s)
        | Some e =>
            let n := node e in
            let or_section r := do r <- r; match r with Some m => Ok m | None => Ok (nowhere s) end in
            if Nat.leb index (le_ n) then Ok (here e)
            else
              match n_type n with
              | FIELD => or_section (check_field_by_index e index)
              | FIELDSET => or_section (check_group_by_index e (n_entries n) index)
              | LIST => or_section (check_group_by_index e (n_items n) index)
              | MULTILINE_FIELD_BEGIN =>
                  if opt_is (n_template n) then Ok (nowhere s)
                  else or_section (check_multiline_by_index e index)
              | SECTION => check_in_section_by_index f e index
              | _ => Ok (nowhere s)
              end
        end
    end.
End H.

Local Open Scope Z_scope.

(** lookup.py:244-256 *)
Definition pick_range (rs : ranges) (index : Z) : option rname :=
  snd (fold_left (fun (a : Z * option rname) x =>
    let '(rightmost, found) := a in
    let '(name, (b, e)) := x in
    if rname_eqb name R_line then a
    else if (Z.of_nat b <=? index) && (index <=? Z.of_nat e) && (rightmost <=? Z.of_nat b)
    then (index, Some name)
    else a) rs (Z.of_nat (fst (line_range rs)), None)).

(** lookup.py:216-258 on the parsed context: the instruction of the found element and the name of
    the range.  [column], [index], [line] are Python ints or None. *)
Definition lookup_in (c : ctx) (column index line : option Z) : res (nat * option rname) :=
  let h := c_heap c in
  let fuel := S (length h) in
  do m <- match index with
          | None =>
              match line with
              | None => Raise TypeError
              | Some l =>
                  if (l <? 0) || (Z.of_nat (c_line_count c) <=? l) then Raise LookupIndexError
                  else check_in_section_by_line h fuel 0 (Z.to_nat l)
              end
          | Some i =>
              if (i <? 0) || (Z.of_nat (length (c_input c)) <? i) then Raise LookupIndexError
              else check_in_section_by_index h fuel 0 (Z.to_nat i)
          end;
  let instr :=
    match lm_instr m with
    | Some i => Some i
    | None =>
        match line with
        | None => None
        | Some l => opt_leaf (find (fun x => Z.of_nat (l_line x) =? l) (c_meta c))
        end
    end in
  match instr with
  | None => Ok (lm_element m, None)
  | Some i =>
      let rs := i_ranges i in
      do idx <- match index, column with
                | Some i, _ => Ok i
                | None, Some col => Ok (Z.of_nat (fst (line_range rs)) + col)
                | None, None => Raise TypeError
                end;
      Ok (lm_element m, pick_range rs idx)
  end.

Definition lookup (inp : text) (column index line : option Z) (loc : locale) (rk : reporter_kind)
  (source : option text) : res (ctx * nat * option rname) :=
  do c <- parse_context inp loc rk source;
  do r <- lookup_in c column index line;
  Ok (c, fst r, snd r).
