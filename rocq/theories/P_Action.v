(** Properties C96-C98: what a whole search runs and what the API yields. *)
From Coq Require Import List NArith ZArith Bool Lia Permutation.
From Verif Require Import Py GrammarSpec TypeSpec WalkModel WalkSpec.
From Verif Require Import EntryModel TypeModel RegistryModel TestModel FieldModel TemplateModel TemplateSpec SortModel SortSpec PoolModel ConsoleModel ConsoleSpec
  ArgumentsModel ArgumentsSpec SearchModel SearchSpec SearchRuns OutputModel OutputSpec OutputRuns ActionModel ActionSpec ActionProofs ActionRuns.
From Verif Require BatchModel.
Import ListNotations.
Local Open Scope Z_scope.

Section Action.
  Variable R : Type.
  Variable rcompile : str -> res R.
  Variable rsearch : R -> str -> bool.
  Variable parse_time : str -> res Z.
  Variable debug : bool.
  Variable case : case_mode.
  Variable registered : list plugin.
  Variable init_plugin : str -> res unit.
  Variable reference_value : str * str -> str -> res value.
  Variable score : test R -> Z.
  Variable other : entry -> str -> option value.
  Variable plugin_value : entry -> str * str -> option value.
  Variable cwd : str.
  Variable device : str -> Z.
  Variable listing : str -> list file.
  Variable human : ty -> Z -> str.
  Variable all : bool.
  Variable reverse : bool.
  Variable rendered : entry -> bool.
  Notation Reported := (Reported R rcompile rsearch parse_time debug case registered init_plugin reference_value other plugin_value cwd device listing).
  Notation excluded a := (search_excluded R rcompile rsearch parse_time debug case registered init_plugin reference_value score other
    plugin_value (process_arguments a)).
  Notation matched a := (search_matched R rcompile rsearch parse_time debug case registered init_plugin reference_value score other
    plugin_value (process_arguments a)).
  Notation roots_of a := (search_roots cwd device listing (process_arguments a)).
  Notation get := (entry_value other plugin_value).
  Notation slot := (slot registered init_plugin).
  Notation holes_ok := (holes_ok registered init_plugin).
  Notation command := (command other plugin_value human all).
  Notation has_command := (has_command other plugin_value human all).
  (** As in C82 *)
  Notation sensible a ess := (honest registered init_plugin other plugin_value /\ sensible_args R rcompile parse_time debug case registered init_plugin reference_value a ess /\
    real_directories cwd listing a /\ NoDup (map (start_path cwd (absolute_paths a)) (a_directories a))).
  Notation setup a fields sort := (setup_fields registered init_plugin (process_arguments a) = Ok (fields, sort)).

  (** C96: with -x one command is run for each file to be reported that has
      all values, in some order, and nothing else.  (prompt: as in C76) *)
  Theorem C96_immediate_partial : forall a ess ts templates full jobs halt punctual timeout, sensible a ess ->
    Forall2 Reads ts templates -> Forall holes_ok templates -> with_path templates full -> (0 < jobs)%nat ->
    exists fs roots, store registered init_plugin ts = Ok fs /\ roots_of a = Ok roots /\ forall ls s,
    WalkModel.run entry (excluded a) (matched a) (has_command fs) Exec jobs halt true punctual timeout (initial entry jobs roots) ls s -> main_ s = MPassed ->
    exists cmds, NoDup (map fst (ran s)) /\
      (forall e, In e (map fst (ran s)) <-> Reported a ess e /\ ~ Exists (Fails get all slot e) full) /\
      map (command fs) (map fst (ran s)) = map Some cmds /\
      Forall2 (fun e args => Forall2 (Expands get human all slot e) full args) (map fst (ran s)) cmds.
  Proof.
    intros a ess ts templates full jobs halt punctual timeout (H1 & H2 & H3 & H4) T1 T2 T3.
    exact (executed R rcompile rsearch parse_time debug case registered init_plugin reference_value score other plugin_value cwd device listing
      human all a ess H1 H2 H3 H4 ts templates full T1 T2 T3 jobs halt punctual timeout).
  Qed.
  (** With --sort or --limit the commands are those of the selected files; the
      threads of the pool run each of them once. *)
  Theorem C96_collected_partial : forall a ess ts templates full fields sort limit jobs halt timeout, sensible a ess ->
    Forall2 Reads ts templates -> Forall holes_ok templates -> with_path templates full -> setup a fields sort -> (0 < jobs)%nat ->
    (forall s f, sort = Some s -> In f s -> f_modifier f <> Some ($"v")) ->
    exists fs roots, store registered init_plugin ts = Ok fs /\ roots_of a = Ok roots /\ forall ls s,
    WalkModel.run entry (excluded a) (matched a) rendered Collect jobs halt true true timeout (initial entry jobs roots) ls s -> main_ s = MPassed ->
    exists found sorted part cmds, NoDup found /\ (forall e, In e found <-> Reported a ess e) /\
      Ordered get sort reverse found sorted /\ Limited limit sorted part /\ Commands get human all slot full part cmds /\
      exec_entries other plugin_value sort reverse limit (results Collect s) = Ok part /\
      forall jobs' pls p, (0 < jobs')%nat -> ~ In PLStop pls -> prun (command fs) false (pinitial jobs' part) pls p -> pfinal p ->
        Permutation (map fst (pran p)) cmds.
  Proof.
    intros a ess ts templates full fields sort limit jobs halt timeout (H1 & H2 & H3 & H4) T1 T2 T3 H5.
    exact (executed_after R rcompile rsearch parse_time debug case registered init_plugin reference_value score other plugin_value cwd device listing
      human all reverse a ess H1 H2 H3 H4 ts templates full T1 T2 T3 fields sort H5 limit rendered jobs halt timeout).
  Qed.

  (** C97: the calls of -X are for the selected part of the sorted list of all
      files to be reported, in this order and without gaps; the rest is not
      empty only if a file was too long alone or the command could not be run. *)
  Theorem C97_batch_partial : forall a ess t ts l s0 templates full fields sort limit os jobs halt timeout, sensible a ess ->
    Reads t l -> Forall2 Reads ts templates -> l = map PChar s0 -> Forall holes_ok templates -> with_path (l :: templates) (l :: full) ->
    setup a fields sort -> (0 < jobs)%nat -> (forall s f, sort = Some s -> In f s -> f_modifier f <> Some ($"v")) ->
    exists fs roots, store_batch registered init_plugin (t :: ts) = Ok fs /\ roots_of a = Ok roots /\ forall ls s,
    WalkModel.run entry (excluded a) (matched a) rendered Collect jobs halt true true timeout (initial entry jobs roots) ls s -> main_ s = MPassed ->
    exists found sorted part d rest, NoDup found /\ (forall e, In e found <-> Reported a ess e) /\
      Ordered get sort reverse found sorted /\ Limited limit sorted part /\
      exec_entries other plugin_value sort reverse limit (results Collect s) = Ok part /\
      batch_calls other plugin_value human all fs sort reverse limit os (results Collect s) = Ok d /\
      part = concat (map (fun c => fst (fst c)) (BatchModel.calls d)) ++ rest /\
      (forall k args status, In (k, args, status) (BatchModel.calls d) -> k <> [] /\
         exists outs, args = s0 :: concat outs /\ Forall2 (Batch get human all slot k) full outs) /\
      (BatchModel.ended d = Ok tt \/ BatchModel.ended d = Err SubprocessErr /\ exists m args, os m args = BatchModel.Refused) /\
      (BatchModel.ended d = Ok tt -> rest <> [] -> exists x rest' m args, rest = x :: rest' /\
         render_batch get human all fs [x] = Ok args /\ os m args = BatchModel.TooLong) /\
      (BatchModel.bad_exit d = true <-> exists k args status, In (k, args, status) (BatchModel.calls d) /\ status <> 0).
  Proof.
    intros a ess t ts l s0 templates full fields sort limit os jobs halt timeout (H1 & H2 & H3 & H4) T0 T1 T2 T3 T4 H5.
    exact (batched R rcompile rsearch parse_time debug case registered init_plugin reference_value score other plugin_value cwd device listing
      human all reverse a ess H1 H2 H3 H4 t ts l s0 templates full T0 T1 T2 T3 T4 fields sort H5 limit os rendered jobs halt timeout).
  Qed.

  (** C98: a query by the API yields one record for each file to be reported,
      sorted if there are sort fields. *)
  Theorem C98_records_partial : forall link broken a ess fields sort jobs halt timeout, sensible a ess ->
    find_fields registered init_plugin (process_arguments a) = Ok (fields, sort) -> (0 < jobs)%nat ->
    (forall s f, sort = Some s -> In f s -> f_modifier f <> Some ($"v")) ->
    exists roots, roots_of a = Ok roots /\ forall ls s,
    WalkModel.run entry (excluded a) (matched a) rendered Collect jobs halt true true timeout (initial entry jobs roots) ls s -> main_ s = MPassed ->
    exists found sorted records, NoDup found /\ (forall e, In e found <-> Reported a ess e) /\
      Ordered get (match sort with Some (_ :: _) => sort | _ => None end) reverse found sorted /\
      Forall2 (fun e r => IsRecord (fun c => get (c_entry c)) human (complete link broken e) fields r) sorted records /\
      find_results other plugin_value human link broken fields sort reverse (results Collect s) = Ok records.
  Proof.
    intros link broken a ess fields sort jobs halt timeout (H1 & H2 & H3 & H4) H5.
    exact (found_records R rcompile rsearch parse_time debug case registered init_plugin reference_value score other plugin_value cwd device listing
      human reverse a ess H1 H2 H3 H4 link broken fields sort H5 rendered jobs halt timeout).
  Qed.
  (** Modifiers other than n are refused, so that the values in the records are
      those of the attributes. *)
  Theorem C98_modifiers : forall a fields sort, find_fields registered init_plugin (process_arguments a) = Ok (fields, sort) ->
    setup a fields sort /\ forall f, In f fields -> f_modifier f = None \/ f_modifier f = Some ($"n").
  Proof. exact (find_setup registered init_plugin). Qed.
  Theorem C98_refused : forall a x, setup_fields registered init_plugin (process_arguments a) = Ok x ->
    (exists f m, In f (fst x) /\ f_modifier f = Some m /\ m <> $"n") -> find_fields registered init_plugin (process_arguments a) = Err ValueError.
  Proof. exact (find_refused registered init_plugin). Qed.
End Action.
Print Assumptions C96_immediate_partial.
Print Assumptions C96_collected_partial.
Print Assumptions C97_batch_partial.
Print Assumptions C98_records_partial.
Print Assumptions C98_modifiers.
Print Assumptions C98_refused.

(** ff name%*.py size+5 src -e name=old -H --xdev -d 0-1 -x chown {user} {} *)
Example C96_example : honest ex_registered ex_init act_other ex_plugin /\
  sensible_args str ex_compile ex_time false CaseSmart ex_registered ex_init ex_reference ex_search ex_meaning /\
  real_directories ($"/home") ex_listing ex_search /\
  NoDup (map (start_path ($"/home") (absolute_paths ex_search)) (a_directories ex_search)) /\
  Forall2 Reads act_templates act_pieces /\ Forall (holes_ok ex_registered ex_init) act_pieces /\ with_path act_pieces act_pieces /\
  store ex_registered ex_init act_templates = Ok act_parts /\
  search_roots ($"/home") ex_device ex_listing (process_arguments ex_search) = Ok ex_roots /\
  exists ls s, WalkModel.run entry act_excluded act_matched (has_command act_other ex_plugin ex_human false act_parts)
    Exec 1 false true true 1 (initial entry 1 ex_roots) ls s /\
    main_ s = MPassed /\ map (command act_other ex_plugin ex_human false act_parts) (map fst (ran s)) = [Some [$"chown"; $"root"; $"src/a.py"]].
Proof.
  split; [exact act_honest|]. split; [exact ex_sensible|]. split; [exact ex_real|]. split; [repeat constructor; intros []|].
  split; [exact act_reads|]. split; [exact act_holes|]. split; [exact act_path|]. split; [exact act_store|]. split; [exact ex_roots_eq|]. exact act_run.
Qed.
(** If waiting may end before its time (as in C39) no command may be run. *)
Theorem C96_refuted : exists ls s, WalkModel.run entry act_excluded act_matched (has_command act_other ex_plugin ex_human false act_parts)
    Exec 1 false false true 1 (initial entry 1 ex_roots) ls s /\ main_ s = MPassed /\ ran s = [].
Proof. exact act_lost. Qed.
Print Assumptions C96_refuted.
(** -S size -R -X echo -n {/}, with two calls; the selection with --limit=1; and
    the same query by the API *)
Example C97_example :
  setup_fields ex_registered ex_init (process_arguments ex_sorted) = Ok (ex_fields, Some ex_sort) /\
  find_fields ex_registered ex_init (process_arguments ex_sorted) = Ok (ex_fields, Some ex_sort) /\
  store_batch ex_registered ex_init [$"echo"; $"-n"; $"{/}"] = Ok act_batch /\
  Forall (holes_ok ex_registered ex_init) [map PChar ($"-n"); [PHole ($"/")]] /\
  exists ls s, WalkModel.run entry sorted_excluded sorted_matched every Collect 1 false true true 1 (initial entry 1 ex_roots) ls s /\
  main_ s = MPassed /\
  (exists d, batch_calls ex_other ex_plugin ex_human false act_batch (Some ex_sort) true None act_system (results Collect s) = Ok d /\
     map (fun c => snd (fst c)) (BatchModel.calls d) = [[$"echo"; $"-n"; $"e.py"]; [$"echo"; $"-n"; $"a.py"]] /\ BatchModel.ended d = Ok tt) /\
  (exists part, exec_entries ex_other ex_plugin (Some ex_sort) true (Some (0, Some 1)) (results Collect s) = Ok part /\ map e_path part = [$"src/lib/e.py"]) /\
  find_results ex_other ex_plugin ex_human ex_link ex_broken ex_fields (Some ex_sort) true (results Collect s) =
    Ok [[($"size", Some (VInt 12)); ($"path", Some (VStr ($"src/lib/e.py")))]; [($"size", Some (VInt 10)); ($"path", Some (VStr ($"src/a.py")))]].
Proof. split; [exact ex_setup|]. split; [exact act_find_fields|]. split; [exact act_store_batch|]. split; [exact act_batch_holes|]. exact act_collected. Qed.
(** -o size:h is refused. *)
Example C98_example : setup_fields ex_registered ex_init (process_arguments (PArgs [] [$"src"] [] None false false false
    None ($"auto") false None None None [$"size:h"] None None false)) = Ok ([Field ($"file", $"size") ($"size") TSize None (Some ($"h"))], None).
Proof. vm_compute. reflexivity. Qed.
