(** Specification: what the settings of a program are. *)
From Coq Require Import List NArith ZArith Bool.
From Verif Require Import Py ArgsModel ArgumentsModel ExprSpec ShlexSpec StartSpec StartModel MainModel.
Import ListNotations.

(** The settings are those of the options. *)
Definition Set_by (ns : namespace) (s : settings) : Prop :=
  ns ($"reverse") = ABool (s_reverse s) /\ ns ($"all") = ABool (s_all s) /\ ns ($"follow_symlinks") = ABool (s_follow s) /\
  ns ($"separator") = AStr (s_separator s) /\ ns ($"jobs") = ANum (Z.of_nat (s_jobs s)) /\
  exists h, ns ($"halt") = AStr h /\ (s_halt s = true <-> h = $"soon" \/ h = $"now").
(** The arguments are the options of the same names; an option that was not given
    is None, --profile is not always there. *)
Definition if_given {A} (f : A -> aval) (x : option A) : aval := match x with Some y => f y | None => ANone end.
Definition Taken (ns : namespace) (a : pargs) : Prop :=
  ns ($"tests") = AStrs (a_tests a) /\ ns ($"directories") = AStrs (a_directories a) /\ ns ($"exclude") = AStrs (a_exclude a) /\
  ns ($"depth") = if_given ARanges (a_depth a) /\ ns ($"ignore") = ABool (a_ignore a) /\
  ns ($"one_file_system") = ABool (a_one_file_system a) /\ ns ($"hide") = ABool (a_hide a) /\
  ns ($"json") = if_given AStr (a_json a) /\ ns ($"color") = AStr (a_color a) /\ ns ($"absolute_path") = ABool (a_absolute_path a) /\
  ns ($"count") = if_given AStrs (a_count a) /\ ns ($"limit") = if_given (fun l => ASlice (fst l) (snd l)) (a_limit a) /\
  ns ($"sort") = if_given AStrs (a_sort a) /\ ns ($"output") = AStrs (a_output a) /\ ns ($"exec") = if_given AStrs (a_exec a) /\
  ns ($"exec_batch") = if_given AStrs (a_exec_batch a) /\
  (ns ($"profile") = ABool (a_profile a) \/ ns ($"profile") = ANone /\ a_profile a = false).
(** What the environment and the command line mean: all options, and the
    arguments with the directories to be searched *)
Definition Means (parse_args : list str -> res namespace) (directories : pargs -> res pargs)
    (ff_options : option str) (argv : list str) (ns : namespace) (a : pargs) : Prop :=
  exists l a0, Given ff_options argv l /\ parse_args l = Ok ns /\ Taken ns a0 /\ directories a0 = Ok a.
