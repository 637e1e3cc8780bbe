(** Model of what the constructor of Find does with the query of the caller:
    libff/find.py:58-98 and libff/arguments.py:241-272.  A query in the form of a
    list is not copied, unlike the other lists.  Simplifications: of the arguments
    only the query and the directories; directories are removed from the query also
    when UsageError is raised then.  Later code copies the list (libff/parser.py:102)
    or makes a new one (arguments.py:274-306, not reached: depth is None). *)
From Coq Require Import List NArith Bool.
From Verif Require Import Py StrOrder SortLib ArgumentsModel.
Import ListNotations.

Inductive query := NoQuery | Text (s : str) | Tests (l : list str).
Section Query.
  Variable shlex_split : str -> res (list str).
  Variable isdir : str -> bool.
  Variable cwd : str.
  (** find.py:70-75 *)
  Definition tests_of (q : query) : res (list str) :=
    match q with NoQuery => Ok [] | Text s => shlex_split s | Tests l => Ok l end.
  (** What the search is made from, tests and directories, and the query as the
      caller finds it afterwards *)
  Definition find (q : query) (directories : list str) : res (list str * list str) * query :=
    match tests_of q with
    | Err e => (Err e, q)
    | Ok tests =>
        let (tests', dirs) := match directories with
                              | [] => let (t, d) := front_loop isdir tests tests [] in back_loop isdir (length tests) t d
                              | _ => (tests, directories)
                              end in
        let dirs := match dirs with [] => [$"."] | _ => dirs end in
        (if existsb (fun d => overlaps cwd d dirs) (sort_reverse str_leb dirs) then Err UsageError else Ok (tests', dirs),
         match q with Tests _ => Tests tests' | _ => q end)
    end.
End Query.
