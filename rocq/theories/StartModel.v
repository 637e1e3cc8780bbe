(** Model of how ff starts, from the environment and the command line to the
    search or an early end: /repo/libff/arguments.py:334-357, libff/main.py:62-138,
    181-209, 217-240, libff/exceptions.py:23-83. *)
From Coq Require Import List NArith ZArith Bool.
From Verif Require Import Py ArgsModel ArgumentsModel TypeModel TestModel ParserModel RegistryModel FieldModel TemplateModel OutputModel.
Import ListNotations.

(** How the start ends: with an exit status; with an exception that nothing
    catches, for which Python prints a traceback; with a search. *)
Inductive ending :=
| Exits (code : Z)
| Traceback (e : exc)
| Searches (a : pargs) (output : list field) (sort : option (list field)).

(** libff/exceptions.py:23-83: the subclasses of BaseError that can be raised
    here *)
Definition exitcode (e : exc) : option Z :=
  match e with
  | UsageError => Some 2%Z
  | PluginErr => Some 10%Z
  | BadAttributeError => Some 11%Z
  | ExpressionError => Some 12%Z
  | _ => None
  end.
(** libff/main.py:217-240: Main.__init__ with handle_exception *)
Definition handled (r : res ending) : ending :=
  match r with
  | Ok x => x
  | Err e => match exitcode e with Some c => Exits c | None => Traceback e end
  end.

(** The attributes of the Namespace that ArgumentsModel uses.  None: a value of
    another type, which does not happen ([args_of_ok]). *)
Definition bool_of (x : aval) : option bool := match x with ABool b => Some b | _ => None end.
Definition str_of (x : aval) : option str := match x with AStr s => Some s | _ => None end.
Definition strs_of (x : aval) : option (list str) := match x with AStrs l => Some l | _ => None end.
Definition ranges_of (x : aval) : option (list (Z * option Z)) := match x with ARanges l => Some l | _ => None end.
Definition slice_of (x : aval) : option (Z * option Z) := match x with ASlice a b => Some (a, b) | _ => None end.
Definition maybe {A} (f : aval -> option A) (x : aval) : option (option A) :=
  match x with ANone => Some None | _ => option_map Some (f x) end.
Definition obind {A B} (x : option A) (f : A -> option B) : option B := match x with Some a => f a | None => None end.
Notation "'need' x <- r ; k" := (obind r (fun x => k)) (at level 200, x pattern, r at level 100, k at level 200).
Definition args_of (ns : namespace) : option pargs :=
  need tests <- strs_of (ns ($"tests"));
  need directories <- strs_of (ns ($"directories"));
  need exclude <- strs_of (ns ($"exclude"));
  need depth <- maybe ranges_of (ns ($"depth"));
  need ignore <- bool_of (ns ($"ignore"));
  need one_file_system <- bool_of (ns ($"one_file_system"));
  need hide <- bool_of (ns ($"hide"));
  need json <- maybe str_of (ns ($"json"));
  need color <- str_of (ns ($"color"));
  need absolute_path <- bool_of (ns ($"absolute_path"));
  need count <- maybe strs_of (ns ($"count"));
  need limit <- maybe slice_of (ns ($"limit"));
  need sort <- maybe strs_of (ns ($"sort"));
  need output <- strs_of (ns ($"output"));
  need exec <- maybe strs_of (ns ($"exec"));
  need exec_batch <- maybe strs_of (ns ($"exec_batch"));
  (* only there if __debug__ *)
  need profile <- maybe bool_of (ns ($"profile"));
  Some (PArgs tests directories exclude depth ignore one_file_system hide json color absolute_path count limit sort
    output exec exec_batch (match profile with Some b => b | None => false end)).
(** libff/parser.py:302-308 *)
Definition case_of (x : aval) : case_mode :=
  match x with
  | AStr s => if str_eqb s ($"smart") then CaseSmart else if str_eqb s ($"ignore") then CaseIgnore else CaseSensitive
  | _ => CaseSensitive
  end.

Section Start.
  Variable debug : bool.
  Variable cpus : Z.
  Variable cache color : str.
  Variable shlex_split : str -> res (list str).
  Variable isdir : str -> bool.
  Variable cwd : str.
  Variable registered : list plugin.
  Variable init_plugin : str -> res unit.
  Variable R : Type.
  Variable rcompile : str -> res R.
  Variable parse_time : str -> res Z.
  Variable reference_value : namespace -> str * str -> str -> res value.

  Definition optional_fields {A} (f : list str -> res A) (x : option (list str)) : res (option A) :=
    match x with None => Ok None | Some l => do y <- f l; Ok (Some y) end.
  (** libff/main.py:133-148: the tests and the exclusions.  Only the former are
      parsed inside of "except ParserError". *)
  Definition setup_filters (ns : namespace) (a : pargs) : res unit :=
    let parse_test := parse_test R rcompile parse_time debug (case_of (ns ($"case"))) registered init_plugin (reference_value ns) in
    do _ <- match ParserModel.parse parse_test (a_tests a) with Err ParserError => Err UsageError | r => r end;
    do _ <- ParserModel.parse parse_test (a_exclude a);
    Ok tt.
  (** libff/main.py:76-148.  The cache (83-92) is left out; showing a man page
      (127-131) is taken to succeed. *)
  Definition setup_components (ns : namespace) (a : pargs) : res ending :=
    do '(output, sort) <- setup_fields registered init_plugin a;
    do _ <- optional_fields (count_fields registered init_plugin) (a_count a);
    do _ <- optional_fields (store registered init_plugin) (a_exec a);
    do _ <- optional_fields (store_batch registered init_plugin) (a_exec_batch a);
    match ns ($"action"), ns ($"help") with
    | ANone, ANone => do _ <- setup_filters ns a; Ok (Searches a output sort)
    | ANone, AStr name => if str_in name (map p_name registered) then Ok (Exits 0%Z) else Err UsageError
    | _, _ => Ok (Exits 0%Z)
    end.
  (** libff/arguments.py:334-357, libff/argparse.py:238-243, libff/main.py:62-74,
      181-186, 217-222 *)
  Definition start (ff_options : option str) (argv : list str) : ending :=
    match collect_arguments shlex_split ff_options argv with
    | Err e => Traceback e
    | Ok argv =>
        match parse_args cpus (create_parser debug cpus cache color) argv with
        | Err ArgumentErr => Exits 2%Z
        | Err e => Traceback e
        | Ok ns =>
            if match ns ($"help") with AStr s => str_eqb s ($"all") | _ => false end then Exits 0%Z else
            match args_of ns with
            | None => Traceback Unmodelled
            | Some a =>
                match process isdir cwd debug a with
                | Err UsageError => Exits 2%Z
                | Err e => Traceback e
                | Ok (a, _) => handled (setup_components ns a)
                end
            end
        end
    end.
End Start.
