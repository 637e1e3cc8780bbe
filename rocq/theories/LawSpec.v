(** What is meant by comparing two searches. *)
From Coq Require Import List ZArith.
From Verif Require Import Py ArgumentsModel.
Import ListNotations.

(** The same arguments with other ranges of --depth *)
Definition set_depth (a : pargs) (l : list (Z * option Z)) : pargs :=
  PArgs (a_tests a) (a_directories a) (a_exclude a) (Some l) (a_ignore a) (a_one_file_system a) (a_hide a)
    (a_json a) (a_color a) (a_absolute_path a) (a_count a) (a_limit a) (a_sort a) (a_output a) (a_exec a)
    (a_exec_batch a) (a_profile a).
(** [Stricter a a']: a' is a with -I, -H, --one-file-system and tests for -e
    added. *)
Inductive Stricter (a : pargs) : pargs -> Prop :=
| stricter exclude ignore one_file_system hide :
    incl (a_exclude a) exclude ->
    (a_ignore a = true -> ignore = true) ->
    (a_one_file_system a = true -> one_file_system = true) ->
    (a_hide a = true -> hide = true) ->
    Stricter a (PArgs (a_tests a) (a_directories a) exclude (a_depth a) ignore one_file_system hide
      (a_json a) (a_color a) (a_absolute_path a) (a_count a) (a_limit a) (a_sort a) (a_output a) (a_exec a)
      (a_exec_batch a) (a_profile a)).
