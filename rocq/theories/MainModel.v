(** Model of ff as a whole, put together from the models of its parts: the start
    gives a program, which is the search, and what is printed in the end. *)
From Coq Require Import List NArith ZArith Bool.
From Verif Require Import Py WalkModel EntryModel ArgsModel ArgumentsModel TypeModel TestModel RegistryModel FieldModel TemplateModel
  SortModel CountModel ConsoleModel SearchModel OutputModel ActionModel PresentModel StartModel.
From Verif Require BatchModel.
Import ListNotations.

(** The other attributes of the Namespace that are used by the parts:
    libff/processing.py:254 (reverse), field.py:239 and console.py:234 (all),
    console.py:168 (follow_symlinks), console.py:117 (separator),
    walk.py:70, 216 and 228 (jobs), context.py:156-181 (halt).  None: a value of another
    type, which does not happen ([settings_ok]). *)
Record settings := Settings { s_reverse : bool; s_all : bool; s_follow : bool; s_separator : str; s_jobs : nat; s_halt : bool }.
Definition num_of (x : aval) : option Z := match x with ANum z => Some z | _ => None end.
Definition settings_of (ns : namespace) : option settings :=
  need reverse <- bool_of (ns ($"reverse"));
  need all <- bool_of (ns ($"all"));
  need follow <- bool_of (ns ($"follow_symlinks"));
  need separator <- str_of (ns ($"separator"));
  need jobs <- num_of (ns ($"jobs"));
  need halt <- str_of (ns ($"halt"));
  Some (Settings reverse all follow separator (Z.to_nat jobs) (str_eqb halt ($"soon") || str_eqb halt ($"now"))).

(** What the start leaves behind in the Context: the arguments, the fields for
    output, sorting and counting, the templates of -x and -X, the settings and the
    kind of processing *)
Record program := Program {
  g_ns : namespace; g_args : pargs; g_output : list field; g_sort : option (list field); g_count : list field;
  g_exec : list (list part); g_batch : list (list part); g_settings : settings; g_processing : processing }.

Section Main.
  Variable debug : bool.
  Variable cpus : Z.
  Variable cache color : str.
  Variable shlex_split : str -> res (list str).
  Variable isdir : str -> bool.
  Variable cwd : str.
  Variable registered : list plugin.
  Variable init_plugin : str -> res unit.
  Variable R : Type.
  Variable rcompile : str -> res R.
  Variable rsearch : R -> str -> bool.
  Variable parse_time : str -> res Z.
  Variable reference_value : namespace -> str * str -> str -> res value.
  (** sys.stdout.isatty() and LS_COLORS *)
  Variable terminal : bool.
  Variable ls_colors : str.
  Notation start := (start debug cpus cache color shlex_split isdir cwd registered init_plugin R rcompile parse_time reference_value).

  (** libff/main.py:62-123: if the start succeeds, the things it made *)
  Definition prepare (ff_options : option str) (argv : list str) : option program :=
    match start ff_options argv with
    | Searches a output sort =>
        match (do l <- collect_arguments shlex_split ff_options argv;
               do ns <- parse_args cpus (create_parser debug cpus cache color) l;
               do count <- optional_fields (count_fields registered init_plugin) (a_count a);
               do exec <- optional_fields (store registered init_plugin) (a_exec a);
               do batch <- optional_fields (store_batch registered init_plugin) (a_exec_batch a);
               let given {A} (x : option (list A)) := match x with Some l => l | None => [] end in
               Ok (ns, given count, given exec, given batch)) with
        | Ok (ns, count, exec, batch) =>
            option_map (fun s => Program ns a output sort count exec batch s (setup_processing (chosen_of terminal a))) (settings_of ns)
        | Err _ => None
        end
    | _ => None
    end.

  Variable score : test R -> Z.
  Variable other : entry -> str -> option value.
  Variable plugin_value : entry -> str * str -> option value.
  Variable device : str -> Z.
  Variable listing : str -> list file.
  Variable human : ty -> Z -> str.
  Variable link : entry -> str.
  Variable broken : entry -> bool.
  Notation get := (entry_value other plugin_value).
  Notation cget := (fun c : centry => get (c_entry c)).
  Notation complete := (complete link broken).

  (** libff/processing.py:157-176 and console.py:268-306: only ColorConsole uses
      colours *)
  Definition style_of (c : console) : style := match c with ColorConsole => Coloured (read_colours ls_colors) | _ => Plain end.
  (** The processes that print, run or collect: libff/processing.py:181-215, 222-226 *)
  Definition mode_of (p : processing) : mode :=
    match p with
    | ImmediateConsole _ => Console
    | ImmediateExec => Exec
    | CollectiveConsole _ | CollectiveExec => Collect
    end.
  Definition line_of (g : program) (c : console) (e : entry) : res (option str) :=
    entry_line other plugin_value human (style_of c) (s_follow (g_settings g)) (s_all (g_settings g))
      (field_separator (s_separator (g_settings g))) link broken (g_output g) e.
  (** Whether something is printed or run for a result *)
  Definition useful (g : program) (e : entry) : bool :=
    match g_processing g with
    | ImmediateConsole TextConsole => match line_of g TextConsole e with Ok (Some _) => true | _ => false end
    | ImmediateConsole ColorConsole => match line_of g ColorConsole e with Ok (Some _) => true | _ => false end
    | ImmediateExec => has_command other plugin_value human (s_all (g_settings g)) (g_exec g) e
    | _ => true
    end.
  (** A run of the search up to a state in which main has passed the loop
      (libff/main.py:257-301).  [timeout] as in WalkModel *)
  Definition searched (g : program) (timeout : Z) (ls : list label) (s : state entry) : Prop :=
    let case := case_of (g_ns g ($"case")) in
    let excluded := search_excluded R rcompile rsearch parse_time debug case registered init_plugin (reference_value (g_ns g)) score other plugin_value (g_args g) in
    let matched := search_matched R rcompile rsearch parse_time debug case registered init_plugin (reference_value (g_ns g)) score other plugin_value (g_args g) in
    exists roots, search_roots cwd device listing (g_args g) = Ok roots /\
      WalkModel.run entry excluded matched (useful g) (mode_of (g_processing g)) (s_jobs (g_settings g)) (s_halt (g_settings g)) true true timeout
        (initial entry (s_jobs (g_settings g)) roots) ls s /\ main_ s = MPassed.

  (** What is printed: lines; for --json one text; for --count statistics *)
  Inductive printing := PLines (l : list str) | PText (s : str) | PCount (c : printed_count) | PNothing.
  (** libff/console.py:73-83 for all entries *)
  Definition jsonl_lines (g : program) (entries : list entry) : res (list str) :=
    mapr (fun e => jsonl_line cget human (g_output g) (complete e)) entries.
  (** libff/processing.py:178-187, 228-265, 342-352: by the console for the
      results that have arrived *)
  Definition prints (g : program) (entries : list entry) : res printing :=
    let s := g_settings g in
    let lines c := print_collected other plugin_value human (style_of c) (s_follow s) (s_all s) (field_separator (s_separator s)) link broken
                     (g_output g) (g_sort g) (s_reverse s) (a_limit (g_args g)) entries in
    match g_processing g with
    | CollectiveConsole NullConsole =>
        do c <- count_output human get (g_count g) (match a_json (g_args g) with Some _ => true | None => false end) [entries]; Ok (PCount c)
    | CollectiveConsole JsonConsole =>
        do t <- print_json other plugin_value human link broken (g_output g) (g_sort g) (s_reverse s) (a_limit (g_args g)) entries; Ok (PText t)
    | CollectiveConsole JsonlConsole =>
        do sorted <- finalize get (g_sort g) (s_reverse s) entries;
        do l <- jsonl_lines g (entries_range (a_limit (g_args g)) sorted); Ok (PLines l)
    | CollectiveConsole c => do l <- lines c; Ok (PLines l)
    | ImmediateConsole JsonlConsole => do l <- jsonl_lines g entries; Ok (PLines l)
    | ImmediateConsole NullConsole => Ok PNothing
    | ImmediateConsole c =>
        do l <- entry_lines other plugin_value human (style_of c) (s_follow s) (s_all s) (field_separator (s_separator s)) link broken (g_output g) entries;
        Ok (PLines l)
    | CollectiveExec | ImmediateExec => Ok PNothing
    end.

  (** What is run when all results have arrived: the commands for some entries by
      the threads of a pool (PoolModel), or calls for all of them *)
  Inductive running := RNothing | RPool (entries : list entry) | RCalls (d : @BatchModel.done entry).
  (** libff/processing.py:355-392.  [os] as in BatchModel *)
  Definition executes (g : program) (os : nat -> list str -> BatchModel.outcome) (entries : list entry) : res running :=
    let s := g_settings g in
    match g_processing g with
    | CollectiveExec =>
        do part <- exec_entries other plugin_value (g_sort g) (s_reverse s) (a_limit (g_args g)) entries;
        match part with
        | [] => Ok RNothing
        | _ :: _ =>
            match a_exec (g_args g), a_exec_batch (g_args g) with
            | Some _, _ => Ok (RPool part)
            | None, Some _ => Ok (RCalls (BatchModel.finalize (render_batch get human (s_all s) (g_batch g)) os part))
            | None, None => Err AssertionErr
            end
        end
    | _ => Ok RNothing
    end.
End Main.
