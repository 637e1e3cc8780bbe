(** Model of the processing of the parsed arguments, /repo/libff/arguments.py:174-357,
    and of the selection of results, /repo/libff/processing.py:228-235. *)
From Coq Require Import List NArith ZArith Bool.
From Verif Require Import Py PathModel OsPath StrOrder SortLib ArgsModel TypeModel TestModel ParserModel.
Import ListNotations.

(** os.path.commonpath([a, b]) (CPython Lib/posixpath.py) for two absolute
    paths *)
Definition path_comps (path : str) : list str :=
  filter (fun c => negb (str_eqb c [] || str_eqb c ($"."))) (split_on SLASH path).
Fixpoint common_prefix (a b : list str) : list str :=
  match a, b with
  | x :: a, y :: b => if str_eqb x y then x :: common_prefix a b else []
  | _, _ => []
  end.
Definition commonpath (a b : str) : str := SLASH :: join_with ($"/") (common_prefix (path_comps a) (path_comps b)).

(** The fields of the namespace that are used here. *)
Record pargs := PArgs {
  a_tests : list str; a_directories : list str; a_exclude : list str;
  a_depth : option (list (Z * option Z)); a_ignore : bool; a_one_file_system : bool; a_hide : bool;
  a_json : option str; a_color : str; a_absolute_path : bool;
  a_count : option (list str); a_limit : option (Z * option Z); a_sort : option (list str);
  a_output : list str; a_exec : option (list str); a_exec_batch : option (list str); a_profile : bool }.

Definition set_tests (a : pargs) (l : list str) : pargs :=
  PArgs l (a_directories a) (a_exclude a) (a_depth a) (a_ignore a) (a_one_file_system a) (a_hide a)
    (a_json a) (a_color a) (a_absolute_path a) (a_count a) (a_limit a) (a_sort a) (a_output a) (a_exec a)
    (a_exec_batch a) (a_profile a).
Definition set_directories (a : pargs) (l : list str) : pargs :=
  PArgs (a_tests a) l (a_exclude a) (a_depth a) (a_ignore a) (a_one_file_system a) (a_hide a)
    (a_json a) (a_color a) (a_absolute_path a) (a_count a) (a_limit a) (a_sort a) (a_output a) (a_exec a)
    (a_exec_batch a) (a_profile a).
Definition set_exclude (a : pargs) (l : list str) : pargs :=
  PArgs (a_tests a) (a_directories a) l (a_depth a) (a_ignore a) (a_one_file_system a) (a_hide a)
    (a_json a) (a_color a) (a_absolute_path a) (a_count a) (a_limit a) (a_sort a) (a_output a) (a_exec a)
    (a_exec_batch a) (a_profile a).
Definition set_json_output (a : pargs) : pargs :=
  PArgs (a_tests a) (a_directories a) (a_exclude a) (a_depth a) (a_ignore a) (a_one_file_system a) (a_hide a)
    (a_json a) ($"never") true (a_count a) (a_limit a) (a_sort a) (a_output a) (a_exec a)
    (a_exec_batch a) (a_profile a).
Definition set_count (a : pargs) (c : option (list str)) : pargs :=
  PArgs (a_tests a) (a_directories a) (a_exclude a) (a_depth a) (a_ignore a) (a_one_file_system a) (a_hide a)
    (a_json a) (a_color a) (a_absolute_path a) c (a_limit a) (a_sort a) (a_output a) (a_exec a)
    (a_exec_batch a) (a_profile a).
Definition set_output (a : pargs) (l : list str) : pargs :=
  PArgs (a_tests a) (a_directories a) (a_exclude a) (a_depth a) (a_ignore a) (a_one_file_system a) (a_hide a)
    (a_json a) (a_color a) (a_absolute_path a) (a_count a) (a_limit a) (a_sort a) l (a_exec a)
    (a_exec_batch a) (a_profile a).
Definition set_sort (a : pargs) (s : option (list str)) : pargs :=
  PArgs (a_tests a) (a_directories a) (a_exclude a) (a_depth a) (a_ignore a) (a_one_file_system a) (a_hide a)
    (a_json a) (a_color a) (a_absolute_path a) (a_count a) (a_limit a) s (a_output a) (a_exec a)
    (a_exec_batch a) (a_profile a).

(** libff/arguments.py:174-184; shlex.split and the environment are parameters *)
Definition collect_arguments (shlex_split : str -> res (list str)) (ff_options : option str) (argv : list str)
  : res (list str) :=
  do env <- (match ff_options with Some (c :: s) => shlex_split (c :: s) | _ => Ok [] end);
  Ok (env ++ argv).

Definition truthy {A} (x : option (list A)) : bool := match x with Some (_ :: _) => true | _ => false end.

Section Process.
  (** os.path.isdir and os.getcwd *)
  Variable isdir : str -> bool.
  Variable cwd : str.
  Variable debug : bool.

  (** libff/arguments.py:251 *)
  Definition is_directory (test : str) : bool := has_char SLASH test && isdir test.
  (** list.remove: the first occurrence *)
  Fixpoint remove_first (x : str) (l : list str) : list str :=
    match l with [] => [] | y :: t => if str_eqb y x then t else y :: remove_first x t end.
  (** libff/arguments.py:250-256, the loop over the copy of the list *)
  Fixpoint front_loop (copy tests dirs : list str) : list str * list str :=
    match copy with
    | [] => (tests, dirs)
    | t :: copy =>
        if is_directory t then front_loop copy (remove_first t tests) (dirs ++ [normpath t])
        else (tests, dirs)
    end.
  (** The same, for the reversed iterator.  It was made from the original
      list; [i] is one more than its index.  It ends when its index is not in
      the list any more (CPython Objects/listobject.c, listreviter_next). *)
  Fixpoint back_loop (i : nat) (tests dirs : list str) : list str * list str :=
    match i with
    | O => (tests, dirs)
    | S i =>
        match nth_error tests i with
        | None => (tests, dirs)
        | Some t =>
            if is_directory t then back_loop i (remove_first t tests) (dirs ++ [normpath t])
            else (tests, dirs)
        end
    end.
  (** libff/arguments.py:262-272: is one of the directories inside another?
      The inner loop *)
  Definition overlaps (directory : str) (directories : list str) : bool :=
    existsb (fun subdir =>
      negb (str_eqb subdir directory) &&
      str_eqb (commonpath (abspath cwd directory) (abspath cwd subdir)) (abspath cwd subdir)) directories.
  (** libff/arguments.py:241-272 *)
  Definition process_directories (a : pargs) : res pargs :=
    let a := match a_directories a with
             | [] =>
                 let tests := a_tests a in
                 let (tests', dirs) := front_loop tests tests [] in
                 let (tests'', dirs) := back_loop (length tests) tests' dirs in
                 set_directories (set_tests a tests'') dirs
             | _ => a
             end in
    let a := match a_directories a with [] => set_directories a [$"."] | _ => a end in
    if existsb (fun directory => overlaps directory (a_directories a)) (sort_reverse str_leb (a_directories a))
    then Err UsageError else Ok a.

  (** libff/arguments.py:274-306 *)
  Definition range_tests (r : Z * option Z) : list str :=
    let (start, stop) := r in
    match stop with
    | Some stop =>
        if (start =? stop)%Z then [$"depth=" ++ str_of_Z start]
        else [$"depth+=" ++ str_of_Z start; $"depth-=" ++ str_of_Z stop]
    | None => [$"depth+=" ++ str_of_Z start]
    end.
  Fixpoint ranges_tests (l : list (Z * option Z)) : list str :=
    match l with
    | [] => []
    | [r] => range_tests r
    | r :: l => range_tests r ++ $"OR" :: ranges_tests l
    end.
  (** The stops of all ranges, if none of them is missing *)
  Fixpoint all_stops (l : list (Z * option Z)) : option (list Z) :=
    match l with
    | [] => Some []
    | (_, Some stop) :: l => option_map (cons stop) (all_stops l)
    | (_, None) :: _ => None
    end.
  Definition max_list (l : list Z) : Z := match l with [] => 0%Z | x :: l => fold_left Z.max l x end.
  Definition process_depth_argument (a : pargs) (depth : list (Z * option Z)) : pargs :=
    let a := match all_stops depth with
             | Some stops => set_exclude a (a_exclude a ++ [$"depth+" ++ str_of_Z (max_list stops)])
             | None => a
             end in
    let tests := $"{{" :: ranges_tests depth ++ [$"}}"] in
    set_tests a (tests ++ match a_tests a with [] => [] | l => $"{{" :: l ++ [$"}}"] end).

  (** libff/arguments.py:308-331 *)
  Definition process_arguments (a : pargs) : pargs :=
    let a := match a_json a with Some (_ :: _) => set_json_output a | _ => a end in
    let a := if a_ignore a then set_exclude a (a_exclude a ++ [$"ignored=yes"]) else a in
    let a := if a_one_file_system a then set_exclude a (a_exclude a ++ [$"samedev=no"]) else a in
    let a := if a_hide a then set_exclude a (a_exclude a ++ [$"hide=yes"]) else a in
    let a := match a_depth a with Some (r :: l) => process_depth_argument a (r :: l) | _ => a end in
    match a_count a with
    | Some [[]] =>
        set_count a (Some (match a_json a with
                           | Some _ => [$"file.size"; $"file.type"]
                           | None => [$"file.size:h"; $"file.type"]
                           end))
    | _ => a
    end.

  (** libff/arguments.py:202-213 *)
  Definition check_for_errors (a : pargs) : res unit :=
    if debug && (a_profile a && (truthy (a_exec a) || truthy (a_exec_batch a))) then Err UsageError
    else if truthy (a_count a) && (truthy (a_exec a) || truthy (a_exec_batch a)) then Err UsageError
    else if truthy (a_count a) && match a_limit a with Some _ => true | None => false end then Err UsageError
    else Ok tt.

  Definition default_output : list str := [$"path"].
  Definition strs_eqb (a b : list str) : bool :=
    Nat.eqb (length a) (length b) && forallb (fun p => str_eqb (fst p) (snd p)) (combine a b).
  Inductive warning := OutputWithExec | SortWithCount | OutputWithCount | LimitWithoutSort.
  (** libff/arguments.py:215-239 *)
  Definition collect_warnings (a : pargs) : pargs * list warning :=
    let '(a, w) := if negb (strs_eqb (a_output a) default_output) && (truthy (a_exec a) || truthy (a_exec_batch a))
                   then (set_output a default_output, [OutputWithExec]) else (a, []) in
    let '(a, w) := if truthy (a_count a) then
                     let '(a, w) := if truthy (a_sort a) then (set_sort a None, w ++ [SortWithCount]) else (a, w) in
                     if negb (strs_eqb (a_output a) default_output)
                     then (set_output a default_output, w ++ [OutputWithCount]) else (a, w)
                   else (a, w) in
    if match a_limit a with Some _ => negb (truthy (a_sort a)) | None => false end
    then (a, w ++ [LimitWithoutSort]) else (a, w).
  (** libff/arguments.py:193-200 *)
  Definition process (a : pargs) : res (pargs * list warning) :=
    do a <- process_directories a;
    let a := process_arguments a in
    do _ <- check_for_errors a;
    Ok (collect_warnings a).
End Process.

(** libff/processing.py:228-235 *)
Definition entries_range {A} (limit : option (Z * option Z)) (entries : list A) : list A :=
  match limit with
  | None => entries
  | Some (start, stop) => slice entries (Some start) stop
  end.

(** libff/filter.py:80-88 and 124-134: a test of an entry.  [attribute] gives the
    values the plugins provide for the entry, None stands for KeyError. *)
Definition run_entry {R} (rsearch : R -> str -> bool) (name : str) (is_dir : bool)
  (attribute : str * str -> option value) (t : test R) : outcome :=
  match attribute (t_attribute t) with
  | None => Missing
  | Some v => match run rsearch t name is_dir v with Ok b => Val b | Err e => Raise e end
  end.
