(** Model of the command line parser, /repo/libff/argparse.py, and of its
    option table, /repo/libff/arguments.py:44-171. *)
From Coq Require Import List NArith ZArith Bool.
From Verif Require Import Py Re.
Import ListNotations.
Local Open Scope N_scope.

Inductive action := StoreTrue | StoreConst | Append | Store | StoreOptional | StoreRemainder | Arguments.
(** The conversion functions given as [type]. *)
Inductive conv := TStr | TJobs | TList | TSet | TRanges | TSlice.
(** The values of options. *)
Inductive aval :=
| ANone | ABool (b : bool) | AStr (s : str) | ANum (z : Z) | AStrs (l : list str)
| ARanges (l : list (Z * option Z)) | ASlice (start : Z) (stop : option Z).
(** libff/argparse.py:139-174.  [choices], [help] and [metavar] are not used
    by the parser. *)
Record opt := Opt {
  o_strings : list str; o_action : action; o_type : conv; o_dest : str; o_const : aval; o_default : aval }.

(** libff/argparse.py:60-63 *)
Definition type_list (string : str) : list str := map strip (split_on 44 string).

(** libff/argparse.py:72; the named groups are numbered: 1 single, 2 start,
    3 stop *)
Definition range_pattern : str := $"^(?:(\d+)|(\d*)-(\d*))$".
Definition range_re : re :=
  Eval vm_compute in match compile false range_pattern with COk r => r | _ => Eps end.
Lemma range_re_ok : compile false range_pattern = COk range_re.
Proof. reflexivity. Qed.
(** int() of a string of digits; of the empty string a default *)
Definition num_or {A} (s : str) (d : A) (f : Z -> A) : A :=
  match s with [] => d | _ => f (Z.of_N (digits_val s)) end.
(** libff/argparse.py:78-101, one range *)
Definition type_range (range_ : str) : res (Z * option Z) :=
  match re_match range_re range_ with
  | None => Err ValueError
  | Some (_, cs) =>
      match group 1 cs with
      | Some single => let number := Z.of_N (digits_val single) in Ok (number, Some number)
      | None =>
          match group 2 cs, group 3 cs with
          | Some start, Some stop =>
              let start := num_or start 0%Z (fun z => z) in
              Ok (num_or stop (start, None) (fun stop =>
                    if (stop <? start)%Z then (stop, Some start) else (start, Some stop)))
          | _, _ => Err ValueError
          end
      end
  end.
(** libff/argparse.py:74-104 *)
Definition type_ranges (string : str) : res (list (Z * option Z)) := mapr type_range (type_list string).

(** libff/argparse.py:107-108; groups 1 start, 2 stop, 3 pagesize, 4 page *)
Definition slice_pattern : str := $"^(?:(\d*|-?\d+):(\d*|-?\d+)|(\d+),(\d+))$".
Definition slice_re : re :=
  Eval vm_compute in match compile false slice_pattern with COk r => r | _ => Eps end.
Lemma slice_re_ok : compile false slice_pattern = COk slice_re.
Proof. reflexivity. Qed.
(** int() of a string matched by -?\d+ *)
Definition int_of (s : str) : Z :=
  match s with
  | c :: t => if N.eqb c 45 then (- Z.of_N (digits_val t))%Z else Z.of_N (digits_val s)
  | [] => 0%Z
  end.
(** libff/argparse.py:110-136 *)
Definition type_slice (string : str) : res (Z * option Z) :=
  match re_match slice_re string with
  | None => Err ArgumentErr
  | Some (_, cs) =>
      match group 1 cs, group 2 cs with
      | Some start, Some stop =>
          Ok (match start with [] => 0%Z | _ => int_of start end,
              match stop with [] => None | _ => Some (int_of stop) end)
      | _, _ =>
          match group 3 cs, group 4 cs with
          | Some pagesize, Some page =>
              let pagesize := Z.of_N (digits_val pagesize) in
              let page := Z.of_N (digits_val page) in
              Ok ((pagesize * page)%Z, Some (pagesize * (page + 1))%Z)
          | _, _ => Err ArgumentErr
          end
      end
  end.

Section Parser.
  (** libff/__init__.py:40 MAX_CPU *)
  Variable max_cpu : Z.
  (** libff/argparse.py:36-57 *)
  Definition type_jobs (string : str) : res Z :=
    match py_int string with
    | None => Err ValueError
    | Some num =>
        if (num <? 0)%Z then Err ValueError
        else let num := if (num =? 0)%Z then max_cpu else num in Ok (Z.max (Z.min num max_cpu) 1)
    end.
  (** option.type(string) *)
  Definition convert (t : conv) (string : str) : res aval :=
    match t with
    | TStr => Ok (AStr string)
    | TJobs => do z <- type_jobs string; Ok (ANum z)
    (* the order of a set is not observable *)
    | TList | TSet => Ok (AStrs (type_list string))
    | TRanges => do l <- type_ranges string; Ok (ARanges l)
    | TSlice => do '(a, b) <- type_slice string; Ok (ASlice a b)
    end.

  Variable options : list opt.

  (** libff/argparse.py:202-223: a dictionary that has a value for every
      destination. *)
  Definition namespace := str -> aval.
  Definition ns_set (ns : namespace) (key : str) (value : aval) : namespace :=
    fun k => if str_eqb k key then value else ns k.
  (** Values that are not strings are not modelled; all options that append
      have type str. *)
  Definition ns_append (ns : namespace) (key : str) (value : aval) : res namespace :=
    match value with
    | AStr v =>
        match ns key with
        | ANone => Ok (ns_set ns key (AStrs [v]))
        | AStrs l => Ok (ns_set ns key (AStrs (l ++ [v])))
        | _ => Err AttributeErr
        end
    | _ => Err Unmodelled
    end.
  (** libff/argparse.py:322-327: the first option of a destination decides *)
  Definition initialize : namespace := fun k =>
    match find (fun o => str_eqb k (o_dest o)) options with Some o => o_default o | None => ANone end.

  Definition is_arguments (o : opt) : bool := match o_action o with Arguments => true | _ => false end.
  (** libff/argparse.py:329-338 *)
  Definition get_option (string : str) : res opt :=
    match find (fun o => negb (is_arguments o) && str_in string (o_strings o)) options with
    | Some o => Ok o
    | None => Err ArgumentErr
    end.
  (** libff/argparse.py:340-347 *)
  Definition get_arguments_option : res opt :=
    match find is_arguments options with Some o => Ok o | None => Err ArgumentErr end.

  Definition takes_value (o : opt) : bool :=
    match o_action o with Store | StoreOptional | Append => true | _ => false end.
  (** libff/argparse.py:349-367: what is put in front of the remaining
      arguments; [arg] is the bundle without its dash *)
  Fixpoint unbundle (arg : str) : res (list str) :=
    match arg with
    | [] => Ok []
    | c :: rest =>
        do o <- get_option [45; c];
        if takes_value o then Ok [[45; c]; rest]
        else do l <- unbundle rest; Ok ([45; c] :: l)
    end.
  (** arg.split("=", 1) *)
  Fixpoint split_eq (s : str) : option (str * str) :=
    match s with
    | [] => None
    | c :: t =>
        if N.eqb c 61 then Some ([], t)
        else match split_eq t with Some (a, b) => Some (c :: a, b) | None => None end
    end.
  (** libff/argparse.py:369-383 *)
  Definition parse_long (long_option value : str) : res (list str) :=
    do o <- get_option long_option;
    if takes_value o then Ok [long_option; value] else Err ArgumentErr.

  Definition dashed (s : str) : bool := starts_with [45] s.

  (** libff/argparse.py:425-459; [argv] without the option *)
  Definition parse_option (ns : namespace) (string : str) (argv : list str) : res (namespace * list str) :=
    do o <- get_option string;
    match o_action o with
    | StoreTrue => Ok (ns_set ns (o_dest o) (ABool true), argv)
    | StoreConst => Ok (ns_set ns (o_dest o) (o_const o), argv)
    | Append =>
        match argv with
        | [] => Err ArgumentErr
        | v :: argv => do x <- convert (o_type o) v; do ns <- ns_append ns (o_dest o) x; Ok (ns, argv)
        end
    | Store =>
        match argv with
        | [] => Err ArgumentErr
        | v :: argv => do x <- convert (o_type o) v; Ok (ns_set ns (o_dest o) x, argv)
        end
    | StoreOptional =>
        let default := match o_const o with AStr s => convert (o_type o) s | _ => Err TypeErr end in
        match argv with
        | v :: argv' =>
            if dashed v then do x <- default; Ok (ns_set ns (o_dest o) x, argv)
            else do x <- convert (o_type o) v; Ok (ns_set ns (o_dest o) x, argv')
        | [] => do x <- default; Ok (ns_set ns (o_dest o) x, argv)
        end
    | StoreRemainder =>
        match argv with
        | [] => Err ArgumentErr
        | _ => do ns <- fold_left (fun r v => do ns <- r; ns_append ns (o_dest o) (AStr v)) argv (Ok ns); Ok (ns, [])
        end
    | Arguments => Err ArgumentErr
    end.

  (** list.pop while the next argument is not an option *)
  Fixpoint take_args (argv : list str) : list str * list str :=
    match argv with
    | [] => ([], [])
    | a :: t => if dashed a then ([], argv) else let (x, y) := take_args t in (a :: x, y)
    end.
  (** libff/argparse.py:461-471 *)
  Definition parse_arguments (ns : namespace) (argv : list str) : res (namespace * list str) :=
    do o <- get_arguments_option;
    match ns (o_dest o) with
    | AStrs (_ :: _) => Err ArgumentErr
    | _ =>
        let (args, rest) := take_args argv in
        do ns <- fold_left (fun r v => do ns <- r; ns_append ns (o_dest o) (AStr v)) args (Ok ns);
        Ok (ns, rest)
    end.

  (** libff/argparse.py:395-412, the body of the loop *)
  Definition turn (ns : namespace) (arg : str) (argv : list str) : res (namespace * list str) :=
    if dashed arg then
      let long := starts_with [45; 45] arg in
      do argv <- (if negb long && Nat.ltb 2 (length arg) then
                    do l <- unbundle (tl arg); Ok (l ++ argv)
                  else if long then
                    match split_eq arg with
                    | Some (long_option, value) => do l <- parse_long long_option value; Ok (l ++ argv)
                    | None => Ok (arg :: argv)
                    end
                  else Ok (arg :: argv));
      match argv with
      | string :: argv => parse_option ns string argv
      | [] => Err IndexErr
      end
    else parse_arguments ns (arg :: argv).
  (** libff/argparse.py:385-417.  ArgumentErr is caught there and ends ff with
      exit code 2; other exceptions are not caught. *)
  Fixpoint loop (fuel : nat) (ns : namespace) (argv : list str) : res namespace :=
    match argv with
    | [] => Ok ns
    | arg :: argv =>
        match fuel with
        | O => Err OutOfFuel
        | S fuel => do '(ns, argv) <- turn ns arg argv; loop fuel ns argv
        end
    end.
  (** An upper bound of the number of turns. *)
  Definition weight (argv : list str) : nat := list_sum (map (fun a => if Nat.leb (length a) 2 then 1%nat else length a) argv).
  Definition parse_args (argv : list str) : res namespace := loop (weight argv) initialize argv.
End Parser.

(** libff/arguments.py:44-171.  The defaults that depend on the environment
    (the home directory, NO_COLOR) and __debug__ are parameters. *)
Section Table.
  Variable debug : bool.
  Variable max_cpu : Z.
  Variable default_cache default_color : str.
  Definition flag (strings : list str) (dest : str) : opt :=
    Opt strings StoreTrue TStr dest ANone (ABool false).
  Definition store (strings : list str) (t : conv) (dest : str) (default : aval) : opt :=
    Opt strings Store t dest ANone default.
  Definition const_ (strings : list str) (dest : str) (const default : aval) : opt :=
    Opt strings StoreConst TStr dest const default.
  Definition create_parser : list opt :=
    [Opt [$"tests"] Arguments TStr ($"tests") ANone (AStrs [])] ++
    (if debug then
       [flag [$"--profile"] ($"profile"); store [$"--debug"] TList ($"debug") (AStrs [$"none"])]
     else []) ++
    [store [$"--cache"] TStr ($"cache") (AStr default_cache);
     const_ [$"--no-cache"] ($"cache") ANone ANone;
     const_ [$"--clean-cache"] ($"action") (AStr ($"clean")) ANone;
     store [$"-j"; $"--jobs"] TJobs ($"jobs") (ANum max_cpu);
     Opt [$"-D"; $"--directory"] Append TStr ($"directories") ANone (AStrs []);
     Opt [$"-h"; $"--help"] StoreOptional TStr ($"help") (AStr ($"all")) ANone;
     const_ [$"--version"] ($"action") (AStr ($"version")) ANone;
     const_ [$"--help-full"] ($"action") (AStr ($"full")) ANone;
     const_ [$"--help-attributes"] ($"action") (AStr ($"attributes")) ANone;
     const_ [$"--help-plugins"] ($"action") (AStr ($"plugins")) ANone;
     const_ [$"--help-types"] ($"action") (AStr ($"types")) ANone;
     Opt [$"-e"; $"--exclude"] Append TStr ($"exclude") ANone (AStrs []);
     flag [$"-H"; $"--hide"] ($"hide");
     flag [$"-I"; $"--ignore"] ($"ignore");
     flag [$"--no-parent-ignore"] ($"no_parent_ignore");
     store [$"--ignore-files"] TSet ($"ignore_files")
       (AStrs [$".ignore"; $".gitignore"; $".fdignore"; $".ffignore"]);
     store [$"-d"; $"--depth"] TRanges ($"depth") ANone;
     store [$"-c"; $"--case"] TStr ($"case") (AStr ($"smart"));
     flag [$"-L"; $"--follow"] ($"follow_symlinks");
     flag [$"--one-file-system"; $"--mount"; $"--xdev"] ($"one_file_system");
     flag [$"--fail"] ($"fail");
     Opt [$"-x"; $"--exec"] StoreRemainder TStr ($"exec") ANone ANone;
     Opt [$"-X"; $"--exec-batch"] StoreRemainder TStr ($"exec_batch") ANone ANone;
     store [$"--halt"; $"--halt-on-error"] TStr ($"halt") (AStr ($"never"));
     store [$"-C"; $"--color"] TStr ($"color") (AStr default_color);
     flag [$"-a"; $"--absolute-path"] ($"absolute_path");
     const_ [$"-0"; $"--print0"] ($"newline") (AStr [0]) (AStr [10]);
     const_ [$"-v"; $"--verbose"] ($"output")
       (AStrs [$"mode:h"; $"links"; $"user:h"; $"group:h"; $"size:5h"; $"time:h"; $"path:h"]) (AStrs [$"path"]);
     Opt [$"-S"; $"--sort"] StoreOptional TList ($"sort") (AStr ($"file.path")) ANone;
     flag [$"-R"; $"--reverse"] ($"reverse");
     Opt [$"--count"] StoreOptional TList ($"count") (AStr []) ANone;
     store [$"-l"; $"--limit"] TSlice ($"limit") ANone;
     const_ [$"-1"] ($"limit") (ASlice 0 (Some 1%Z)) ANone;
     store [$"-o"; $"--output"] TList ($"output") ANone;
     store [$"--sep"] TStr ($"separator") (AStr ($" "));
     flag [$"--all"] ($"all");
     const_ [$"--json"] ($"json") (AStr ($"json")) ANone;
     const_ [$"--jsonl"; $"--ndjson"] ($"json") (AStr ($"jsonl")) ANone;
     flag [$"--si"] ($"si")].
End Table.
