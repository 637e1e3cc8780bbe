(** A command line whose search meets the assumptions *)
From Coq Require Import List NArith ZArith Bool Lia.
From Verif Require MainProofs.
From Verif Require Import Py ExprSpec GrammarSpec TypeSpec WalkModel WalkSpec.
From Verif Require Import EntryModel ArgsModel ArgumentsModel ArgumentsSpec TypeModel TestModel RegistryModel FieldModel TemplateModel
  SortModel CountModel ConsoleModel SearchModel SearchSpec SearchRuns OutputModel OutputRuns ActionModel ActionRuns
  PresentModel PresentSpec ShlexModel ShlexSpec ShlexProofs StartModel StartSpec StartProofs MainModel MainSpec.
From Verif Require BatchModel.
Import ListNotations.

Definition ex_argv : list str :=
  [$"name%*.py"; $"size+5"; $"-e"; $"name=old"; $"--xdev"; $"-d"; $"0-1"; $"-o"; $"size:4,path"; $"-S"; $"size"; $"-R"; $"-1"; $"-j1"].
Definition ex_prepare := prepare false 4 ($"c") ($"auto") shlex_split (fun _ => true) ($"/home") ex_registered ex_init str ex_compile ex_time
  (fun _ => ex_reference) false.
Definition ex_searched := searched false ($"/home") ex_registered ex_init str ex_compile ex_re ex_time (fun _ => ex_reference) [] ex_score ex_other ex_plugin
  ex_device ex_listing ex_human ex_link ex_broken.
Definition ex_prints := prints [] ex_other ex_plugin ex_human ex_link ex_broken.
Definition ex_words : list str := [$"-H"; $"-D"; $"src"] ++ ex_argv.
Definition ex_ns : namespace := match parse_args 4 (create_parser false 4 ($"c") ($"auto")) ex_words with Ok ns => ns | Err _ => fun _ => ANone end.
Definition ex_program : program := Program ex_ns (process_arguments ex_sorted) ex_fields (Some ex_sort) [] [] []
  (Settings true false false ($" ") 1 false) (CollectiveConsole TextConsole).
Lemma ex_parsed : parse_args 4 (create_parser false 4 ($"c") ($"auto")) ex_words = Ok ex_ns.
Proof.
  unfold ex_ns. assert (X : match parse_args 4 (create_parser false 4 ($"c") ($"auto")) ex_words with Ok _ => true | Err _ => false end = true) by (vm_compute; reflexivity).
  destruct (parse_args 4 (create_parser false 4 ($"c") ($"auto")) ex_words); [reflexivity|discriminate X].
Qed.
Lemma ex_started : StartModel.start false 4 ($"c") ($"auto") shlex_split (fun _ => true) ($"/home") ex_registered ex_init str ex_compile ex_time
  (fun _ => ex_reference) (Some ($"-H -D src")) ex_argv = Searches (process_arguments ex_sorted) ex_fields (Some ex_sort).
Proof. vm_compute. reflexivity. Qed.
Lemma ex_prepared : ex_prepare (Some ($"-H -D src")) ex_argv = Some ex_program.
Proof.
  unfold ex_prepare, prepare. rewrite ex_started.
  assert (X : collect_arguments shlex_split (Some ($"-H -D src")) ex_argv = Ok ex_words) by (vm_compute; reflexivity).
  rewrite X. cbn [bindr]. rewrite ex_parsed. cbn [bindr].
  assert (Y : settings_of ex_ns = Some (Settings true false false ($" ") 1 false)) by (vm_compute; reflexivity).
  assert (Z1 : a_count (process_arguments ex_sorted) = None) by (vm_compute; reflexivity).
  assert (Z2 : a_exec (process_arguments ex_sorted) = None) by (vm_compute; reflexivity).
  assert (Z3 : a_exec_batch (process_arguments ex_sorted) = None) by (vm_compute; reflexivity).
  rewrite Z1, Z2, Z3. cbn [optional_fields bindr]. cbv zeta. rewrite Y. cbn [option_map]. unfold ex_program. f_equal.
Qed.
Lemma ex_whole :
  ex_prepare (Some ($"-H -D src")) ex_argv = Some ex_program /\
  Means (parse_args 4 (create_parser false 4 ($"c") ($"auto"))) (process_directories (fun _ => true) ($"/home")) (Some ($"-H -D src")) ex_argv (g_ns ex_program) ex_sorted /\
  case_of (g_ns ex_program ($"case")) = CaseSmart /\ Waits ex_sorted /\ Asked ex_sorted false Lines /\
  honest ex_registered ex_init ex_other ex_plugin /\
  sensible_args str ex_compile ex_time false CaseSmart ex_registered ex_init ex_reference ex_sorted ex_meaning /\
  exists ls s, ex_searched ex_program 1 ls s /\ ex_prints ex_program (results Collect s) = Ok (PLines [$"  12 src/lib/e.py"]).
Proof.
  split; [exact ex_prepared|]. split.
  { exists ex_words. eexists. split; [|split; [exact ex_parsed|]; split; [apply MainProofs.args_taken; vm_compute; reflexivity|vm_compute; reflexivity]].
    assert (G := given_collect (Some ($"-H -D src")) ex_argv).
    assert (X : collect_arguments shlex_split (Some ($"-H -D src")) ex_argv = Ok ex_words) by (vm_compute; reflexivity).
    rewrite X in G. exact G. }
  split; [vm_compute; reflexivity|]. split; [left; eexists _, _; reflexivity|].
  split; [apply asked_lines; [intros [(x & y & H)|(x & y & H)]; discriminate H|intros (x & y & H); discriminate H|reflexivity|intros [H|[_ H]]; discriminate H]|].
  split; [exact ex_honest|]. split; [exact ex_sensible|].
  destruct ex_collected as (ls & s & Hr & Hm & _ & E & _). exists ls, s. split.
  - exists ex_roots. split; [exact ex_roots_eq|]. split; [exact Hr|exact Hm].
  - unfold ex_prints, prints. cbn [g_processing ex_program g_settings g_output g_sort g_args]. cbv zeta.
    change (s_separator (Settings true false false ($" ") 1 false)) with ($" "). 
    assert (X : a_limit (process_arguments ex_sorted) = Some (0%Z, Some 1%Z)) by (vm_compute; reflexivity). rewrite X.
    assert (X' : field_separator ($" ") = $" ") by (vm_compute; reflexivity). rewrite X'.
    cbn [style_of s_follow s_all s_reverse]. rewrite E. reflexivity.
Qed.

(** FF_OPTIONS="-H -D src" ff name%*.py size+5 -e name=old --xdev -d 0-1 -S size -R -j1 -X echo -n {/} *)
Definition ex_batch_argv : list str :=
  [$"name%*.py"; $"size+5"; $"-e"; $"name=old"; $"--xdev"; $"-d"; $"0-1"; $"-S"; $"size"; $"-R"; $"-j1"; $"-X"; $"echo"; $"-n"; $"{/}"].
Definition ex_batch_words : list str := [$"-H"; $"-D"; $"src"] ++ ex_batch_argv.
Definition ex_batch_ns : namespace := match parse_args 4 (create_parser false 4 ($"c") ($"auto")) ex_batch_words with Ok ns => ns | Err _ => fun _ => ANone end.
Definition ex_batched : pargs :=
  PArgs [$"name%*.py"; $"size+5"] [$"src"] [$"name=old"] (Some [(0%Z, Some 1%Z)]) false true true
    None ($"auto") false None None (Some [$"size"]) [$"path"] None (Some [$"echo"; $"-n"; $"{/}"]) false.
Definition ex_batch_fields : list field := [Field ($"file", $"path") ($"path") TPath None None].
Definition ex_batch_program : program := Program ex_batch_ns (process_arguments ex_batched) ex_batch_fields (Some ex_sort) [] [] act_batch
  (Settings true false false ($" ") 1 false) CollectiveExec.
Definition ex_executes := executes ex_other ex_plugin ex_human.
Lemma ex_batch_parsed : parse_args 4 (create_parser false 4 ($"c") ($"auto")) ex_batch_words = Ok ex_batch_ns.
Proof.
  unfold ex_batch_ns. assert (X : match parse_args 4 (create_parser false 4 ($"c") ($"auto")) ex_batch_words with Ok _ => true | Err _ => false end = true) by (vm_compute; reflexivity).
  destruct (parse_args 4 (create_parser false 4 ($"c") ($"auto")) ex_batch_words); [reflexivity|discriminate X].
Qed.
Lemma ex_batch_collected : collect_arguments shlex_split (Some ($"-H -D src")) ex_batch_argv = Ok ex_batch_words.
Proof. vm_compute. reflexivity. Qed.
Lemma ex_batch_started : StartModel.start false 4 ($"c") ($"auto") shlex_split (fun _ => true) ($"/home") ex_registered ex_init str ex_compile ex_time
  (fun _ => ex_reference) (Some ($"-H -D src")) ex_batch_argv = Searches (process_arguments ex_batched) ex_batch_fields (Some ex_sort).
Proof. vm_compute. reflexivity. Qed.
Lemma ex_batch_prepared : ex_prepare (Some ($"-H -D src")) ex_batch_argv = Some ex_batch_program.
Proof.
  unfold ex_prepare, prepare. rewrite ex_batch_started, ex_batch_collected. cbn [bindr]. rewrite ex_batch_parsed. cbn [bindr].
  assert (Y : settings_of ex_batch_ns = Some (Settings true false false ($" ") 1 false)) by (vm_compute; reflexivity).
  assert (Z1 : a_count (process_arguments ex_batched) = None) by (vm_compute; reflexivity).
  assert (Z2 : a_exec (process_arguments ex_batched) = None) by (vm_compute; reflexivity).
  assert (Z3 : a_exec_batch (process_arguments ex_batched) = Some [$"echo"; $"-n"; $"{/}"]) by (vm_compute; reflexivity).
  rewrite Z1, Z2, Z3. cbn [optional_fields bindr]. rewrite act_store_batch. cbn [bindr]. cbv zeta. rewrite Y. cbn [option_map]. unfold ex_batch_program. f_equal.
Qed.
Lemma ex_batch_whole :
  ex_prepare (Some ($"-H -D src")) ex_batch_argv = Some ex_batch_program /\
  Means (parse_args 4 (create_parser false 4 ($"c") ($"auto"))) (process_directories (fun _ => true) ($"/home")) (Some ($"-H -D src")) ex_batch_argv (g_ns ex_batch_program) ex_batched /\
  case_of (g_ns ex_batch_program ($"case")) = CaseSmart /\ Waits ex_batched /\ Asked ex_batched false Commands /\
  exists ls s d, ex_searched ex_batch_program 1 ls s /\ ex_executes ex_batch_program act_system (results Collect s) = Ok (RCalls d) /\
    map (fun c => snd (fst c)) (BatchModel.calls d) = [[$"echo"; $"-n"; $"e.py"]; [$"echo"; $"-n"; $"a.py"]].
Proof.
  split; [exact ex_batch_prepared|]. split.
  { exists ex_batch_words. eexists. split; [|split; [exact ex_batch_parsed|]; split; [apply MainProofs.args_taken; vm_compute; reflexivity|vm_compute; reflexivity]].
    assert (G := given_collect (Some ($"-H -D src")) ex_batch_argv). rewrite ex_batch_collected in G. exact G. }
  split; [vm_compute; reflexivity|]. split; [left; eexists _, _; reflexivity|].
  split; [apply asked_commands; right; eexists _, _; reflexivity|].
  destruct act_collected as (ls & s & Hr & Hm & (d & E & C & _) & _). exists ls, s, d. split; [|split; [|exact C]].
  - exists ex_roots. split; [exact ex_roots_eq|]. split; [exact Hr|exact Hm].
  - unfold batch_calls in E. unfold ex_executes, executes. cbn [g_processing ex_batch_program g_settings g_sort g_args g_batch s_reverse s_all]. cbv zeta.
    assert (X : a_limit (process_arguments ex_batched) = None) by (vm_compute; reflexivity). rewrite X.
    assert (Z2 : a_exec (process_arguments ex_batched) = None) by (vm_compute; reflexivity).
    assert (Z3 : a_exec_batch (process_arguments ex_batched) = Some [$"echo"; $"-n"; $"{/}"]) by (vm_compute; reflexivity).
    rewrite Z2, Z3. unfold exec_entries. destruct (finalize _ _ _ _) as [sorted|]; [|discriminate E]. cbn [bindr] in E |- *. injection E as E.
    subst d. destruct sorted as [|e l]; [discriminate C|]. reflexivity.
Qed.
