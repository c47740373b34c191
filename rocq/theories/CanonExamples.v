(** CanonExamples: a document for PropCanon. *)
From Verif Require Import Base Types Messages Reporter Errors Context Elements SpecText SpecRead SpecCanon CanonScan SpecQuery Session SessionRun.

Definition line_feed : text := [nl].
Definition sample : raw_t := RawDocument
  [RawEmpty None (U "a: b");
   RawField (Some (Some (U "first" ++ line_feed ++ line_feed ++ U "  third"))) (U "k") (Some (U "one" ++ line_feed ++ U "-- k" ++ line_feed ++ U "  two "));
   RawField None (U "short") (Some (U "value: with < operators"));
   RawField None (U "- n") None;
   RawField None (U "blank") (Some []);
   RawList None (U "l") [RawItem None (Some (U "x")); RawItem (Some None) None; RawItem (Some (Some (U "why"))) (Some (U "- y"))];
   RawFieldset None (U "`f``") [RawEntry None (U "=") (Some (U "v")); RawEntry None (U "p q") None];
   RawSection (Some (Some (U "c"))) (U "# s")
     [RawField None (U "k") (Some (U "v"));
      RawSection None (U "t") [RawSection None (U "u < u") [RawEmpty None (U "deep")]];
      RawSection None (U "t") []];
   RawSection None (U "s") [RawList None (U "l") [RawItem None None]]].

Ltac trim := apply fits_trimmed; vm_compute; reflexivity.
Ltac fine := vm_compute; repeat split; try discriminate.

Lemma fine_comment t : Forall comment_line (lines_of t) -> hd [] (lines_of t) <> [] -> last (lines_of t) [] <> [] -> Exists trimmed (lines_of t) ->
  comment_fine (Some (Some t)).
Proof. repeat split; assumption. Qed.

Lemma sample_document : document sample.
Proof.
  exists (match sample with RawDocument l => firstn 7 l | _ => [] end), (match sample with RawDocument l => skipn 7 l | _ => [] end).
  split; [reflexivity|]. split.
  - repeat first [apply Forall_cons | apply Forall_nil].
    + constructor; [exact I|trim].
    + constructor; [|trim]. apply fine_comment; [|vm_compute; discriminate|vm_compute; discriminate|].
      * change (lines_of (U "first" ++ line_feed ++ line_feed ++ U "  third")) with [U "first"; []; repeat 32%N 2 ++ U "third"].
        constructor; [right; exists 0, (U "first"); split; [reflexivity|trim]|]. constructor; [now left|].
        constructor; [right; exists 2, (U "third"); split; [reflexivity|trim]|constructor].
      * left. trim.
    + constructor; [exact I|trim].
    + constructor; [exact I|trim].
    + constructor; [exact I|trim].
    + constructor; [exact I|trim|discriminate|]. repeat first [apply Forall_cons | apply Forall_nil].
      * constructor; [exact I|trim].
      * constructor; exact I.
      * constructor; [|trim]. apply fine_comment; [|vm_compute; discriminate|vm_compute; discriminate|left; trim].
        constructor; [right; exists 0, (U "why"); split; [reflexivity|trim]|constructor].
    + constructor; [exact I|trim|discriminate|]. repeat first [apply Forall_cons | apply Forall_nil].
      * constructor; [exact I|trim|trim].
      * constructor; [exact I|trim|exact I].
  - constructor.
    + apply (se_section _ _ [RawField None (U "k") (Some (U "v"))] [RawSection None (U "t") [RawSection None (U "u < u") [RawEmpty None (U "deep")]]; RawSection None (U "t") []]).
      * apply fine_comment; [|vm_compute; discriminate|vm_compute; discriminate|left; trim].
        constructor; [right; exists 0, (U "c"); split; [reflexivity|trim]|constructor].
      * trim.
      * constructor; [|constructor]. constructor; [exact I|trim].
      * constructor; [|constructor; [|constructor]].
        -- apply (se_section _ _ [] [RawSection None (U "u < u") [RawEmpty None (U "deep")]]); [exact I|trim|constructor|].
           constructor; [|constructor]. apply (se_section _ _ [RawEmpty None (U "deep")] []); [exact I|trim| |constructor].
           constructor; [|constructor]. constructor; [exact I|trim].
        -- apply (se_section _ _ [] []); [exact I|trim|constructor|constructor].
    + constructor; [|constructor]. apply (se_section _ _ [RawList None (U "l") [RawItem None None]] []); [exact I|trim| |constructor].
      constructor; [|constructor]. constructor; [exact I|trim|discriminate|]. constructor; [|constructor]. constructor; exact I.
Qed.

(** its text *)
Definition sample_lines : list text :=
  [U "` a: b `:";
   U "> first"; U ">"; U ">   third";
   U "---- k"; U "one"; U "-- k"; U "  two "; U "---- k";
   U "short: value: with < operators";
   U "-- - n"; U "-- - n";
   U "-- blank"; []; U "-- blank";
   U "l:"; U "- x"; U ">"; U ">"; U "-"; U "> why"; U "- - y";
   U "```` `f`` ````:"; U "` = ` = v"; U "p q =";
   U "> c"; U "# ` # s `"; U "k: v"; U "## t"; U "### ` u < u `"; U "deep:"; U "## t";
   U "# s"; U "l:"; U "-"].
Lemma sample_text : canonical sample = text_of sample_lines.
Proof. vm_compute. reflexivity. Qed.
Lemma sample_back : parse_context (canonical sample) en TextReporter None = Ok (ctx_of (canonical sample)) /\
  snd (raw_of 0 (begin (canonical sample))) = Ok sample.
Proof. split; vm_compute; reflexivity. Qed.

(** another order of the same elements is another document *)
Definition sample2 : raw_t := RawDocument [RawEmpty None (U "b"); RawEmpty None (U "a")].
Lemma sample2_document : document sample2.
Proof.
  exists [RawEmpty None (U "b"); RawEmpty None (U "a")], []. split; [reflexivity|]. split; [|constructor].
  constructor; [|constructor; [|constructor]]; constructor; solve [exact I|trim].
Qed.

(** a section in front of an element cannot be told from an element in the section *)
Lemma order_matters : canonical (RawDocument [RawSection None (U "s") []; RawEmpty None (U "a")]) =
                      canonical (RawDocument [RawSection None (U "s") [RawEmpty None (U "a")]]).
Proof. reflexivity. Qed.
