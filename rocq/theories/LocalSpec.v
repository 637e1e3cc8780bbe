(** Specification for C124: the same way in two trees, entries on the way to
    another, options in short. *)
From Coq Require Import List.
From Verif Require Import Py PathSpec EntryModel ArgumentsModel SearchModel SearchSpec.
Import ListNotations.

(** [Agree l l' names]: on the way through names the two trees look the same:
    each step exists in both or in neither, and is the same file. *)
Definition Agree (l l' : list file) (names : list str) : Prop :=
  forall k r st, names = k ++ r -> k <> [] ->
    (exists g, Place l k g /\ f_status g = st) <-> (exists g, Place l' k g /\ f_status g = st).
(** [Way e' e]: e' is e or a directory that e is below, in the same start
    directory. *)
Definition Way (e' e : entry) : Prop :=
  e_start e' = e_start e /\
  exists names below, names <> [] /\ Forall name_ok (names ++ below) /\
    e_relpath e' = join_with [SLASH] names /\ e_relpath e = join_with [SLASH] (names ++ below).
(** The same arguments with -I, --one-file-system and -H or without *)
Definition set_flags (a : pargs) (ignore one_file_system hide : bool) : pargs :=
  PArgs (a_tests a) (a_directories a) (a_exclude a) (a_depth a) ignore one_file_system hide
    (a_json a) (a_color a) (a_absolute_path a) (a_count a) (a_limit a) (a_sort a) (a_output a) (a_exec a)
    (a_exec_batch a) (a_profile a).
(** and without --depth *)
Definition no_depth (a : pargs) : pargs :=
  PArgs (a_tests a) (a_directories a) (a_exclude a) None (a_ignore a) (a_one_file_system a) (a_hide a)
    (a_json a) (a_color a) (a_absolute_path a) (a_count a) (a_limit a) (a_sort a) (a_output a) (a_exec a)
    (a_exec_batch a) (a_profile a).
