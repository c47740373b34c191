(** PropLaid: PROPERTY C53 (the ranges of an instruction make up its line). *)
From Verif Require Import Base Types Analyzer SpecText SpecLaid PropAnalysisProofs LaidProofs.

(** * C53 *)

(** The ranges recorded for an instruction, a comment, a continuation or a line of a multiline
    field, put in order, with white space between and around them, are the whole line. *)
Theorem C53_ranges_make_up_lines : forall inp st lc, analyze inp = AOk st lc ->
  (forall n, In n (tl (a_heap st)) -> laid_out inp (n_ranges n)) /\
  (forall l, In l (flat_map hanging (tl (a_heap st)) ++ a_meta st) -> laid_out inp (l_ranges l)).
Proof. exact lines_laid. Qed.
Print Assumptions C53_ranges_make_up_lines.

(** Every visible character of the line belongs to exactly one range. *)
Theorem C53_each_character : forall inp st lc, analyze inp = AOk st lc ->
  forall rs, (exists n, In n (tl (a_heap st)) /\ rs = n_ranges n) \/ (exists l, In l (flat_map hanging (tl (a_heap st)) ++ a_meta st) /\ rs = l_ranges l) ->
  forall p c, fst (line_range rs) <= p -> p < snd (line_range rs) -> nth_error inp p = Some c -> is_space c = false ->
  exists nm s, (In (nm, s) rs /\ nm <> R_line /\ fst s <= p < snd s) /\
    forall nm' s', In (nm', s') rs -> nm' <> R_line -> fst s' <= p < snd s' -> nm' = nm /\ s' = s.
Proof. exact characters_placed. Qed.
Print Assumptions C53_each_character.

Example C53_sample : let inp := U " ` a ` :  b
|  c
> d" in
  map n_ranges (tl (a_heap (st_of (analyze inp)))) = [[(R_line, (0, 11)); (R_element_operator, (7, 8)); (R_escape_begin_operator, (1, 2)); (R_escape_end_operator, (5, 6)); (R_key, (3, 4)); (R_value, (10, 11))]] /\
  map l_ranges (flat_map hanging (tl (a_heap (st_of (analyze inp)))) ++ a_meta (st_of (analyze inp))) =
    [[(R_line, (12, 16)); (R_direct_line_continuation_operator, (12, 13)); (R_value, (15, 16))]; [(R_line, (17, 20)); (R_comment_operator, (17, 18)); (R_comment, (19, 20))]].
Proof. vm_compute. auto. Qed.
