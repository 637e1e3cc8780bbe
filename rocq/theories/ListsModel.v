(** The lists of time patterns and exit codes in the manual page:
    /repo/libff/help.py:106-122, libff/exceptions.py:23-83. *)
From Coq Require Import List NArith ZArith Bool.
From Verif Require Import Py ArgsModel TimeModel UsageModel.
Import ListNotations.
Open Scope N_scope.

(** [YmdHMS] *)
Definition is_directive (c : char) : bool := has_char c ($"YmdHMS").
(** re.sub of the directives (help.py:108) *)
Fixpoint doubled (s : str) : str :=
  match s with
  | [] => []
  | c :: t =>
      match t with
      | d :: u => if (c =? 37) && is_directive d then d :: d :: doubled u else c :: doubled t
      | [] => [c]
      end
  end.
(** help.py:106-110 *)
Definition time_lines (formats : list str) : list str :=
  flat_map (fun fmt => [$"    ``" ++ doubled fmt ++ $"``"; []]) formats.

(** exceptions.py:46-83: exitcode and __doc__ of the subclasses of BaseError, in
    the order of their definition *)
Definition doc (s : str) : str := s ++ [NL] ++ $"    ".
Definition exceptions : list (Z * str) :=
  [(1%Z, doc ($"The --fail option was specified and there were no search results."));
   (2%Z, doc ($"There was an error in the arguments provided by the user."));
   (3%Z, doc ($"One or more --exec or --exec-batch subprocesses had errors."));
   (4%Z, doc ($"One or more ff processes had unrecoverable errors."));
   (10%Z, doc ($"A plugin had an unrecoverable error."));
   (11%Z, doc ($"An attribute was specified that is invalid or does not exist."));
   (12%Z, doc ($"There was an error in a test definition."))].
(** help.py:112-119; the docstrings keep their line breaks *)
Definition exit_lines (l : list (Z * str)) : list str :=
  map (fun x => $"    " ++ str_of_Z (fst x) ++ $"  " ++ snd x) l.

(** ManPage.include (help.py:90-122), None for the ValueError *)
Definition include (debug : bool) (name : str) : option (list str) :=
  include_text debug (fun name =>
    if str_eqb name ($"time_patterns") then Some (time_lines (map snd time_formats))
    else if str_eqb name ($"exit_codes") then Some (exit_lines exceptions)
    else None) name.
