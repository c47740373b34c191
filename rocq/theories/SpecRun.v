(** SpecRun: the states the analysis of a text goes through (SPEC for C09-C12).

    [reach inp st]: after some number of instructions of [inp] the analysis is in state [st],
    about to read the instruction that starts at [a_index st]. *)
From Verif Require Import Base Types Analyzer.

Inductive reach (inp : text) : ast -> Prop :=
| reach_init : reach inp init_ast
| reach_step st st' : reach inp st -> a_index st < length inp -> step inp st = SOk st' -> reach inp st'.
