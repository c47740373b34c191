(** Resolver: model of [resolver.py] (whole file).

    'copy' in an element is a reference to the entry of the copy table named by the element's
    own 'template' text, so it is modelled by the marker [n_copy] plus the table lookup.
    Membership tests on lists of instruction dicts ([element in previous_elements],
    resolver.py:89,102) compare by identity or dict equality; two different instructions always
    differ in their 'line' (proved: [lines_unique]), so node numbers are compared. *)
From Verif Require Import Base Types Analyzer.

(** { 'targets': [...], 'template': ... } *)
Definition copy_table := list (text * (list nat * option nat)).

Definition start_table (l : list (text * list nat)) : copy_table :=
  map (fun p => (fst p, (snd p, None))) l.

(** [RKey]: KeyError raised at [element['copy']['template']], resolver.py:92 and 113. *)
Inductive rres (A : Type) :=
| ROk (a : A)
| RErr (e : perr) (h : heap)
| RKey
| RFuel.
Arguments ROk {A} _. Arguments RErr {A} _ _. Arguments RKey {A}. Arguments RFuel {A}.

Definition mem (x : nat) (l : list nat) : bool := existsb (Nat.eqb x) l.

Definition key_of (h : heap) (i : nat) : text :=
  match n_key (hget h i) with Some k => k | None => [] end.

(** resolver.py:82-86 *)
Definition mirror (h : heap) (element template : nat) : heap :=
  match n_mirror (hget h template) with
  | Some t => hupd h element (set_mirror (Some t))
  | None => hupd h element (set_mirror (Some template))
  end.

Definition hd_opt (o : option (list nat)) : option nat :=
  match o with Some (x :: _) => Some x | _ => None end.

(** resolver.py:13-14 and 45-46 *)
Definition inherit_comments (h : heap) (element template : nat) : heap :=
  match n_comments (hget h template), n_comments (hget h element) with
  | Some cs, None => hupd h element (set_comments (Some cs))
  | _, _ => h
  end.

(** resolver.py:11-42 *)
Definition consolidate_non_section (h0 : heap) (element template : nat) : rres heap :=
  let h := inherit_comments h0 element template in
  match n_type (hget h element) with
  | EMPTY_ELEMENT =>
      match n_type (hget h template) with
      | MULTILINE_FIELD_BEGIN | FIELD => ROk (mirror (hupd h element (set_type FIELD)) element template)
      | FIELDSET => ROk (mirror (hupd h element (set_type FIELDSET)) element template)
      | LIST => ROk (mirror (hupd h element (set_type LIST)) element template)
      | _ => ROk h
      end
  | FIELDSET =>
      match n_type (hget h template) with
      | FIELDSET => ROk (hupd h element (set_extend (Some template)))
      | FIELD | LIST | MULTILINE_FIELD_BEGIN =>
          match hd_opt (n_entries (hget h element)) with
          | Some e => RErr (PMissingFieldsetForEntryNode e) h
          | None => RKey
          end
      | _ => ROk h
      end
  | LIST =>
      match n_type (hget h template) with
      | LIST => ROk (hupd h element (set_extend (Some template)))
      | FIELD | FIELDSET | MULTILINE_FIELD_BEGIN =>
          match hd_opt (n_items (hget h element)) with
          | Some e => RErr (PMissingListForItemNode e) h
          | None => RKey
          end
      | _ => ROk h
      end
  | _ => ROk h
  end.

(** resolver.py:58-76: the merge map.  [None] is Python's [False] (not mergeable),
    [Some (s, t)] is [{'section': s, 'template': t}] ('template' optional). *)
Definition merge_map := list (text * option (nat * option nat)).

(** resolver.py:60-64 *)
Definition merge_sections (h : heap) (elements : list nat) : merge_map :=
  fold_left (fun mm e =>
    let k := key_of h e in
    if negb (itype_eqb (n_type (hget h e)) SECTION) || opt_is (assoc k mm)
    then assoc_upd k (fun _ => None) None mm
    else assoc_upd k (fun x => x) (Some (e, None)) mm) elements [].

(** resolver.py:66-76 *)
Definition merge_templates (h : heap) (elements : list nat) (mm0 : merge_map) : merge_map :=
  fold_left (fun mm e =>
    let k := key_of h e in
    match assoc k mm with
    | None | Some None => mm
    | Some (Some (s, t)) =>
        if negb (itype_eqb (n_type (hget h e)) SECTION) || opt_is t
        then assoc_upd k (fun _ => None) None mm
        else assoc_upd k (fun _ => Some (s, Some e)) None mm
    end) elements mm0.

Definition mergers (mm : merge_map) : list (nat * nat) :=
  flat_map (fun p => match snd p with Some (s, Some t) => [(s, t)] | _ => [] end) mm.

(** resolver.py:44-80; [None]: fuel exhausted. *)
Fixpoint consolidate_sections (fuel : nat) (h0 : heap) (section template : nat) (deep : bool)
  : option heap :=
  match fuel with
  | O => None
  | S f =>
      let h := inherit_comments h0 section template in
      match n_elements (hget h section) with
      | [] => Some (mirror h section template)
      | els =>
          let h1 := hupd h section (set_extend (Some template)) in
          if negb deep then Some h1
          else
            let mm := merge_templates h1 (n_elements (hget h1 template)) (merge_sections h1 els) in
            fold_left (fun acc st =>
              match acc with
              | Some h' => consolidate_sections f h' (fst st) (snd st) true
              | None => None
              end) (mergers mm) (Some h1)
      end
  end.

(** [element['copy']['template']] *)
Definition template_of (h : heap) (tbl : copy_table) (e : nat) : option nat :=
  match n_template (hget h e) with
  | Some t => match assoc t tbl with Some (_, Some x) => Some x | _ => None end
  | None => None
  end.

(** resolver.py:88-99 *)
Fixpoint resolve_non_section (fuel : nat) (tbl : copy_table) (h : heap) (e : nat)
  (prev : list nat) : rres heap :=
  match fuel with
  | O => RFuel
  | S f =>
      if mem e prev then RErr (PCyclic e prev) h
      else
        match template_of h tbl e with
        | None => RKey
        | Some t =>
            match (if n_copy (hget h t) then resolve_non_section f tbl h t (prev ++ [e])
                   else ROk h) with
            | ROk h1 =>
                match consolidate_non_section h1 e t with
                | ROk h2 => ROk (hupd h2 e (set_copy false))
                | r => r
                end
            | r => r
            end
        end
  end.

(** resolver.py:101-120 *)
Fixpoint resolve_section (fuel : nat) (tbl : copy_table) (h : heap) (s : nat)
  (prev : list nat) : rres heap :=
  match fuel with
  | O => RFuel
  | S f =>
      if mem s prev then RErr (PCyclic s prev) h
      else
        match (if n_deep_resolve (hget h s) then
                 match fold_left (fun acc e =>
                         match acc with
                         | ROk h' =>
                             if itype_eqb (n_type (hget h' e)) SECTION &&
                                (n_copy (hget h' e) || n_deep_resolve (hget h' e))
                             then resolve_section f tbl h' e (prev ++ [s])
                             else ROk h'
                         | r => r
                         end) (n_elements (hget h s)) (ROk h) with
                 | ROk h' => ROk (hupd h' s (set_deep_resolve false))
                 | r => r
                 end
               else ROk h) with
        | ROk h1 =>
            if n_copy (hget h1 s) then
              match template_of h1 tbl s with
              | None => RKey
              | Some t =>
                  match (if n_copy (hget h1 t) || n_deep_resolve (hget h1 t)
                         then resolve_section f tbl h1 t (prev ++ [s]) else ROk h1) with
                  | ROk h2 =>
                      match consolidate_sections (S (length h2)) h2 s t (n_deep_copy (hget h2 s)) with
                      | Some h3 => ROk (hupd h3 s (set_copy false))
                      | None => RFuel
                      end
                  | r => r
                  end
              end
            else ROk h1
        | r => r
        end
  end.

(** resolver.py:127-135 and 136-144: consider element [e] as template candidate in a table. *)
Definition index_candidate (h : heap) (tbl : copy_table) (e : nat) : rres copy_table :=
  let k := key_of h e in
  match assoc k tbl with
  | None => ROk tbl
  | Some (targets, tpl) =>
      if (match n_template (hget h e) with Some t => text_eqb k t | None => false end)
      then ROk tbl
      else
        match tpl with
        | Some first =>
            RErr (PTwoTemplates (match targets with x :: _ => x | [] => 0 end) first e) h
        | None => ROk (assoc_upd k (fun x => (fst x, Some e)) (targets, Some e) tbl)
        end
  end.

(** resolver.py:122-144 [index]; state is the pair (section table, non-section table).
    An absent table attribute is the empty table: no key is in it. *)
Fixpoint index (fuel : nat) (h : heap) (tbls : copy_table * copy_table) (s : nat)
  : rres (copy_table * copy_table) :=
  match fuel with
  | O => RFuel
  | S f =>
      fold_left (fun acc e =>
        match acc with
        | ROk (ts, tn) =>
            if itype_eqb (n_type (hget h e)) SECTION then
              match index f h (ts, tn) e with
              | ROk (ts', tn') =>
                  match index_candidate h ts' e with
                  | ROk ts'' => ROk (ts'', tn')
                  | RErr x y => RErr x y | RKey => RKey | RFuel => RFuel
                  end
              | r => r
              end
            else
              match index_candidate h tn e with
              | ROk tn' => ROk (ts, tn')
              | RErr x y => RErr x y | RKey => RKey | RFuel => RFuel
              end
        | r => r
        end) (n_elements (hget h s)) (ROk tbls)
  end.

(** resolver.py:150-156 / 161-167 for one table. *)
Definition resolve_table (notfound : nat -> perr) (resolve1 : heap -> nat -> rres heap)
  (tbl : copy_table) (h : heap) : rres heap :=
  fold_left (fun acc ent =>
    match acc with
    | ROk h =>
        match snd (snd ent) with
        | None => RErr (notfound (match fst (snd ent) with x :: _ => x | [] => 0 end)) h
        | Some _ =>
            fold_left (fun acc t =>
              match acc with
              | ROk h' => if n_copy (hget h' t) then resolve1 h' t else ROk h'
              | r => r
              end) (fst (snd ent)) (ROk h)
        end
    | r => r
    end) tbl (ROk h).

(** resolver.py:146-169 [resolve] *)
Definition resolve (h : heap) (cs cn : list (text * list nat)) : rres heap :=
  let fuel := S (length h) in
  match index fuel h (start_table cs, start_table cn) 0 with
  | ROk (ts, tn) =>
      match resolve_table PNonSectionNotFound
              (fun h e => resolve_non_section fuel tn h e []) tn h with
      | ROk h1 => resolve_table PSectionNotFound (fun h s => resolve_section fuel ts h s []) ts h1
      | r => r
      end
  | RErr e h' => RErr e h'
  | RKey => RKey
  | RFuel => RFuel
  end.
