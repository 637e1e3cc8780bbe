(** From the arguments to the way in which results are presented. *)
From Coq Require Import List NArith ZArith Bool.
From Verif Require Import Py ArgumentsModel ConsoleModel.
Import ListNotations.

(** FF.setup_processing (libff/main.py:242-255) and BaseConsoleProcessing.__init__
    (libff/processing.py:157-176) for the arguments after
    ArgumentsPostProcessor.process.  The fields (SortFields etc., main.py:107-118)
    are lists as long as those of their names. *)
Definition chosen_of (isatty : bool) (a : pargs) : chosen :=
  Chosen (truthy (a_sort a)) (truthy (a_count a)) (match a_limit a with Some _ => true | None => false end)
    (truthy (a_exec a)) (truthy (a_exec_batch a)) (a_json a) (a_color a) isatty.
Definition start_processing (isdir : str -> bool) (cwd : str) (debug isatty : bool) (a : pargs) : res processing :=
  do '(a, _) <- ArgumentsModel.process isdir cwd debug a; Ok (setup_processing (chosen_of isatty a)).
