(** Property C114: from the command line to what is printed and run. *)
From Coq Require Import List NArith ZArith Bool Lia Permutation.
From Verif Require Import Py ExprSpec GrammarSpec TypeSpec WalkModel WalkSpec.
From Verif Require Import EntryModel ArgsModel ArgsSpec ArgumentsModel ArgumentsSpec TypeModel TestModel RegistryModel FieldModel TemplateModel TemplateSpec
  SortModel SortSpec CountModel CountSpec JsonModel ConsoleModel ConsoleSpec SearchModel SearchSpec SearchRuns OutputModel OutputSpec OutputRuns ActionModel ActionSpec ActionRuns
  PoolModel PresentModel PresentSpec ShlexModel StartModel StartSpec MainModel MainSpec MainProofs MainRunProofs MainRuns.
From Verif Require BatchModel TestProofs.
Import ListNotations.

Section Main.
  Variable debug : bool.
  Variable cpus : Z.
  Variable cache color : str.
  Variable isdir : str -> bool.
  Variable cwd : str.
  Variable registered : list plugin.
  Variable init_plugin : str -> res unit.
  Variable R : Type.
  Variable rcompile : str -> res R.
  Variable rsearch : R -> str -> bool.
  Variable parse_time : str -> res Z.
  Variable reference_value : namespace -> str * str -> str -> res value.
  Variable terminal : bool.
  Variable ls_colors : str.
  Hypothesis Hcpus : (1 <= cpus)%Z.
  Variable score : test R -> Z.
  Variable other : entry -> str -> option value.
  Variable plugin_value : entry -> str * str -> option value.
  Variable device : str -> Z.
  Variable listing : str -> list file.
  Variable human : ty -> Z -> str.
  Variable link : entry -> str.
  Variable broken : entry -> bool.
  Notation start := (StartModel.start debug cpus cache color shlex_split isdir cwd registered init_plugin R rcompile parse_time reference_value).
  Notation prepare := (prepare debug cpus cache color shlex_split isdir cwd registered init_plugin R rcompile parse_time reference_value terminal).
  Notation Means := (Means (parse_args cpus (create_parser debug cpus cache color)) (process_directories isdir cwd)).
  Notation searched := (searched debug cwd registered init_plugin R rcompile rsearch parse_time reference_value ls_colors score other plugin_value device listing human link broken).
  Notation prints := (prints ls_colors other plugin_value human link broken).
  Notation executes := (executes other plugin_value human).
  Notation get := (entry_value other plugin_value).
  Notation cget := (fun c : centry => get (c_entry c)).
  Notation complete := (complete link broken).
  Notation case ns := (case_of (ns ($"case"))).
  Notation Reported ns := (Reported R rcompile rsearch parse_time debug (case ns) registered init_plugin (reference_value ns) other plugin_value cwd device listing).
  (** As in C82: what the arguments mean is known, the directories are real ones,
      none is given twice. *)
  Notation sensible ns a ess := (honest registered init_plugin other plugin_value /\ sensible_args R rcompile parse_time debug (case ns) registered init_plugin (reference_value ns) a ess /\
    real_directories cwd listing a /\ NoDup (map (start_path cwd (absolute_paths a)) (a_directories a))).
  Notation separator g := (field_separator (s_separator (g_settings g))).
  Notation all g := (s_all (g_settings g)).
  Notation reverse g := (s_reverse (g_settings g)).
  Notation sortable g := (forall s f, g_sort g = Some s -> In f s -> f_modifier f <> Some ($"v")).
  Notation rooted ns a ess := (forall e, Reported ns a ess e -> is_dir (complete e) = true \/ e_dir e <> [SLASH]).
  (** Lines without colours or with them, if there is something in LS_COLORS *)
  Notation lines_asked a c := (Asked a terminal Lines /\ c = TextConsole \/ Asked a terminal Colours /\ c = ColorConsole /\ ls_colors <> []).

  (** If the start does not end ff (C112) there is a program, whose settings are
      those of the options, presented as the arguments ask for. *)
  Theorem C114_program : forall ff_options argv b output sort, start ff_options argv = Searches b output sort ->
    exists g a, prepare ff_options argv = Some g /\ Means ff_options argv (g_ns g) a /\ g_args g = b /\ g_output g = output /\ g_sort g = sort /\
      Set_by (g_ns g) (g_settings g) /\ (1 <= Z.of_nat (s_jobs (g_settings g)) <= cpus)%Z /\
      Asked a terminal (presents (g_processing g)) /\ (waits (g_processing g) <-> Waits a).
  Proof. exact (main_program debug cpus cache color isdir cwd registered init_plugin R rcompile parse_time reference_value terminal Hcpus). Qed.

  (** Sorted or limited: the lines of the selected part of the sorted list of all
      files to be reported *)
  Theorem C114_lines_partial : forall ff_options argv g a ess c timeout ls s, prepare ff_options argv = Some g -> Means ff_options argv (g_ns g) a ->
    sensible (g_ns g) a ess -> rooted (g_ns g) a ess -> sortable g -> Waits a -> lines_asked a c -> searched g timeout ls s ->
    exists found sorted part lines, NoDup found /\ (forall e, In e found <-> Reported (g_ns g) a ess e) /\
      Ordered get (g_sort g) (reverse g) found sorted /\ Limited (a_limit a) sorted part /\
      prints g (results Collect s) = Ok (PLines lines) /\
      OutputSpec.Lines cget human (style_of ls_colors c) ls_colors (all g) (separator g) (g_output g) (map complete part) lines.
  Proof.
    exact (main_lines debug cpus cache color isdir cwd registered init_plugin R rcompile rsearch parse_time reference_value terminal ls_colors Hcpus
      score other plugin_value device listing human link broken).
  Qed.
  (** Otherwise: one line for each file to be reported that has all values *)
  Theorem C114_immediate_partial : forall ff_options argv g a ess c timeout ls s, prepare ff_options argv = Some g -> Means ff_options argv (g_ns g) a ->
    sensible (g_ns g) a ess -> rooted (g_ns g) a ess -> ~ Waits a -> lines_asked a c -> searched g timeout ls s ->
    exists lines, NoDup (results Console s) /\
      (forall e, In e (results Console s) <-> Reported (g_ns g) a ess e /\ ~ Suppressed cget (all g) (complete e) (g_output g)) /\
      prints g (results Console s) = Ok (PLines lines) /\ length lines = length (results Console s) /\
      OutputSpec.Lines cget human (style_of ls_colors c) ls_colors (all g) (separator g) (g_output g) (map complete (results Console s)) lines.
  Proof.
    exact (main_immediately debug cpus cache color isdir cwd registered init_plugin R rcompile rsearch parse_time reference_value terminal ls_colors Hcpus
      score other plugin_value device listing human link broken).
  Qed.
  (** --json: one array *)
  Theorem C114_json_partial : forall ff_options argv g a ess timeout ls s, prepare ff_options argv = Some g -> Means ff_options argv (g_ns g) a ->
    sensible (g_ns g) a ess -> sortable g -> Asked a terminal Array -> searched g timeout ls s ->
    exists found sorted part records, NoDup found /\ (forall e, In e found <-> Reported (g_ns g) a ess e) /\
      Ordered get (g_sort g) (reverse g) found sorted /\ Limited (a_limit a) sorted part /\
      Forall2 (fun e r => IsRecord cget human (complete e) (g_output g) r) part records /\
      prints g (results Collect s) = Ok (PText ($"[" ++ join_with ($",") (map dumps records) ++ $"]" ++ [10%N])).
  Proof.
    exact (main_json debug cpus cache color isdir cwd registered init_plugin R rcompile rsearch parse_time reference_value terminal ls_colors Hcpus
      score other plugin_value device listing human link broken).
  Qed.
  (** --jsonl: one object per line, for all files to be reported *)
  Theorem C114_jsonl_partial : forall ff_options argv g a ess timeout ls s, prepare ff_options argv = Some g -> Means ff_options argv (g_ns g) a ->
    sensible (g_ns g) a ess -> sortable g -> Waits a -> Asked a terminal Objects -> searched g timeout ls s ->
    exists found sorted part records, NoDup found /\ (forall e, In e found <-> Reported (g_ns g) a ess e) /\
      Ordered get (g_sort g) (reverse g) found sorted /\ Limited (a_limit a) sorted part /\
      Forall2 (fun e r => IsRecord cget human (complete e) (g_output g) r) part records /\
      prints g (results Collect s) = Ok (PLines (map (fun r => dumps r ++ [10%N]) records)).
  Proof.
    exact (main_jsonl debug cpus cache color isdir cwd registered init_plugin R rcompile rsearch parse_time reference_value terminal ls_colors Hcpus
      score other plugin_value device listing human link broken).
  Qed.
  Theorem C114_jsonl_immediate_partial : forall ff_options argv g a ess timeout ls s, prepare ff_options argv = Some g -> Means ff_options argv (g_ns g) a ->
    sensible (g_ns g) a ess -> ~ Waits a -> Asked a terminal Objects -> searched g timeout ls s ->
    exists records, NoDup (results Console s) /\ (forall e, In e (results Console s) <-> Reported (g_ns g) a ess e) /\
      Forall2 (fun e r => IsRecord cget human (complete e) (g_output g) r) (results Console s) records /\
      prints g (results Console s) = Ok (PLines (map (fun r => dumps r ++ [10%N]) records)).
  Proof.
    exact (main_jsonl_immediately debug cpus cache color isdir cwd registered init_plugin R rcompile rsearch parse_time reference_value terminal ls_colors Hcpus
      score other plugin_value device listing human link broken).
  Qed.
  (** --count: the statistics of all files to be reported *)
  Theorem C114_count_partial : forall ff_options argv g a ess timeout ls s, prepare ff_options argv = Some g -> Means ff_options argv (g_ns g) a ->
    sensible (g_ns g) a ess -> Asked a terminal Statistics ->
    NoDup (map ident (g_count g)) -> NoDup ($"_total" :: map f_alias (g_count g)) ->
    (forall f, In f (g_count g) -> f_modifier f = Some ($"h") -> f_type f <> TMode /\ f_type f <> TTime) -> searched g timeout ls s ->
    exists found, NoDup found /\ (forall e, In e found <-> Reported (g_ns g) a ess e) /\
      match a_json a with
      | None => forall lines, prints g (results Collect s) = Ok (PCount (AsLines lines)) -> forall line, In line lines <-> Line get human (g_count g) found line
      | Some _ => exists d, prints g (results Collect s) = Ok (PCount (AsJson d)) /\ NoDup (map fst d) /\
          (forall n x, In (n, x) d -> Item get human (g_count g) found n x) /\
          (forall n x, Item get human (g_count g) found n x -> exists y, In (n, y) d)
      end.
  Proof.
    exact (main_count debug cpus cache color isdir cwd registered init_plugin R rcompile rsearch parse_time reference_value terminal ls_colors Hcpus
      score other plugin_value device listing human link broken).
  Qed.
  (** -x: one command for each file to be reported that has all values *)
  Theorem C114_commands_partial : forall ff_options argv g a ess ts templates full timeout ls s,
    prepare ff_options argv = Some g -> Means ff_options argv (g_ns g) a ->
    sensible (g_ns g) a ess -> ~ Waits a -> a_exec a = Some ts -> ts <> [] ->
    Forall2 Reads ts templates -> Forall (holes_ok registered init_plugin) templates -> with_path templates full -> searched g timeout ls s ->
    exists cmds, NoDup (map fst (ran s)) /\
      (forall e, In e (map fst (ran s)) <-> Reported (g_ns g) a ess e /\ ~ Exists (Fails get (all g) (slot registered init_plugin) e) full) /\
      map (command other plugin_value human (all g) (g_exec g)) (map fst (ran s)) = map Some cmds /\
      Forall2 (fun e args => Forall2 (Expands get human (all g) (slot registered init_plugin) e) full args) (map fst (ran s)) cmds.
  Proof.
    exact (main_exec debug cpus cache color isdir cwd registered init_plugin R rcompile rsearch parse_time reference_value terminal ls_colors Hcpus
      score other plugin_value device listing human link broken).
  Qed.
  (** -x, sorted or limited: the pool of threads gets the selected files, and runs
      each command once unless it is stopped. *)
  Theorem C114_commands_after_partial : forall ff_options argv g a ess ts templates full os timeout ls s,
    prepare ff_options argv = Some g -> Means ff_options argv (g_ns g) a ->
    sensible (g_ns g) a ess -> sortable g -> Waits a -> a_exec a = Some ts -> ts <> [] ->
    Forall2 Reads ts templates -> Forall (holes_ok registered init_plugin) templates -> with_path templates full -> searched g timeout ls s ->
    exists found sorted part cmds, NoDup found /\ (forall e, In e found <-> Reported (g_ns g) a ess e) /\
      Ordered get (g_sort g) (reverse g) found sorted /\ Limited (a_limit a) sorted part /\
      ActionSpec.Commands get human (all g) (slot registered init_plugin) full part cmds /\
      executes g os (results Collect s) = Ok (match part with [] => RNothing | _ :: _ => RPool part end) /\
      forall pls p, prun (command other plugin_value human (all g) (g_exec g)) (s_halt (g_settings g)) (pinitial (s_jobs (g_settings g)) part) pls p ->
        (exists others, Permutation cmds (map fst (pran p) ++ others)) /\
        (s_halt (g_settings g) = false -> ~ In PLStop pls -> pfinal p -> Permutation (map fst (pran p)) cmds).
  Proof.
    exact (main_exec_after debug cpus cache color isdir cwd registered init_plugin R rcompile rsearch parse_time reference_value terminal ls_colors Hcpus
      score other plugin_value device listing human link broken).
  Qed.
  (** -X: the calls are for the selected part of the sorted list of all files to be
      reported, in this order and without gaps. *)
  Theorem C114_batch_partial : forall ff_options argv g a ess t ts l s0 templates full os timeout ls s,
    prepare ff_options argv = Some g -> Means ff_options argv (g_ns g) a ->
    sensible (g_ns g) a ess -> sortable g -> a_exec a = None -> a_exec_batch a = Some (t :: ts) ->
    Reads t l -> Forall2 Reads ts templates -> l = map PChar s0 -> Forall (holes_ok registered init_plugin) templates -> with_path (l :: templates) (l :: full) ->
    searched g timeout ls s ->
    exists found sorted part d rest, NoDup found /\ (forall e, In e found <-> Reported (g_ns g) a ess e) /\
      Ordered get (g_sort g) (reverse g) found sorted /\ Limited (a_limit a) sorted part /\
      executes g os (results Collect s) = Ok (match part with [] => RNothing | _ :: _ => RCalls d end) /\
      part = concat (map (fun c => fst (fst c)) (BatchModel.calls d)) ++ rest /\
      (forall k args status, In (k, args, status) (BatchModel.calls d) -> k <> [] /\
         exists outs, args = s0 :: concat outs /\ Forall2 (Batch get human (all g) (slot registered init_plugin) k) full outs) /\
      (BatchModel.ended d = Ok tt \/ BatchModel.ended d = Err SubprocessErr /\ exists m args, os m args = BatchModel.Refused) /\
      (BatchModel.ended d = Ok tt -> rest <> [] -> exists x rest' m args, rest = x :: rest' /\
         render_batch get human (all g) (g_batch g) [x] = Ok args /\ os m args = BatchModel.TooLong) /\
      (BatchModel.bad_exit d = true <-> exists k args status, In (k, args, status) (BatchModel.calls d) /\ status <> 0%Z).
  Proof.
    exact (main_batch debug cpus cache color isdir cwd registered init_plugin R rcompile rsearch parse_time reference_value terminal ls_colors Hcpus
      score other plugin_value device listing human link broken).
  Qed.
End Main.
Print Assumptions C114_program.
Print Assumptions C114_lines_partial.
Print Assumptions C114_immediate_partial.
Print Assumptions C114_json_partial.
Print Assumptions C114_jsonl_partial.
Print Assumptions C114_jsonl_immediate_partial.
Print Assumptions C114_count_partial.
Print Assumptions C114_commands_partial.
Print Assumptions C114_commands_after_partial.
Print Assumptions C114_batch_partial.

(** The tests of strings are read with the --case that was given. *)
Theorem C114_case R rcompile (rsearch : R -> str -> bool) parse_time debug registered init_plugin reference_value (ns : namespace) s a o v at_ t :
  Writes s a o None v -> TestProofs.resolves registered init_plugin a at_ t -> In t [TString; TPath] -> In o [$"="; $":"] ->
  exists test, parse_test R rcompile parse_time debug (case_of (ns ($"case"))) registered init_plugin reference_value s = Ok test /\
    forall name dir x, exists b, run rsearch test name dir (VStr x) = Ok b /\
      (ns ($"case") = AStr ($"sensitive") -> (b = true <-> StringTest x v o)) /\
      (ns ($"case") = AStr ($"ignore") -> (b = true <-> StringTest (lower x) (lower v) o)) /\
      (ns ($"case") = AStr ($"smart") -> (exists c, In c v /\ upper_case c) -> (b = true <-> StringTest x v o)) /\
      (ns ($"case") = AStr ($"smart") -> (forall c, In c v -> ~ upper_case c) -> (b = true <-> StringTest (lower x) (lower v) o)).
Proof. exact (case_end R rcompile rsearch parse_time debug registered init_plugin reference_value ns s a o v at_ t). Qed.
Print Assumptions C114_case.

(** FF_OPTIONS="-H -D src" ff name%*.py size+5 -e name=old --xdev -d 0-1 -o size:4,path -S size -R -1 -j1, not on a terminal.
    The search and the files are those of C82. *)
Example C114_example :
  ex_prepare (Some ($"-H -D src")) ex_argv = Some ex_program /\
  Means (parse_args 4 (create_parser false 4 ($"c") ($"auto"))) (process_directories (fun _ => true) ($"/home")) (Some ($"-H -D src")) ex_argv (g_ns ex_program) ex_sorted /\
  case_of (g_ns ex_program ($"case")) = CaseSmart /\ Waits ex_sorted /\ Asked ex_sorted false Lines /\
  honest ex_registered ex_init ex_other ex_plugin /\
  sensible_args str ex_compile ex_time false CaseSmart ex_registered ex_init ex_reference ex_sorted ex_meaning /\
  exists ls s, ex_searched ex_program 1 ls s /\ ex_prints ex_program (results Collect s) = Ok (PLines [$"  12 src/lib/e.py"]).
Proof. exact ex_whole. Qed.
(** The same with -X echo -n {/}, where two names are too long for one call *)
Example C114_batch_example :
  ex_prepare (Some ($"-H -D src")) ex_batch_argv = Some ex_batch_program /\
  Means (parse_args 4 (create_parser false 4 ($"c") ($"auto"))) (process_directories (fun _ => true) ($"/home")) (Some ($"-H -D src")) ex_batch_argv (g_ns ex_batch_program) ex_batched /\
  case_of (g_ns ex_batch_program ($"case")) = CaseSmart /\ Waits ex_batched /\ Asked ex_batched false Commands /\
  exists ls s d, ex_searched ex_batch_program 1 ls s /\ ex_executes ex_batch_program act_system (results Collect s) = Ok (RCalls d) /\
    map (fun c => snd (fst c)) (BatchModel.calls d) = [[$"echo"; $"-n"; $"e.py"]; [$"echo"; $"-n"; $"a.py"]].
Proof. exact ex_batch_whole. Qed.
