(** Properties C82-C84: what a whole search prints. *)
From Coq Require Import List NArith ZArith Bool Lia.
From Verif Require Import Py GrammarSpec TypeSpec WalkModel WalkSpec.
From Verif Require Import EntryModel TypeModel RegistryModel TestModel FieldModel SortModel SortSpec CountModel CountSpec JsonModel ConsoleModel ConsoleSpec
  ArgumentsModel ArgumentsSpec SearchModel SearchSpec SearchRuns OutputModel OutputSpec OutputProofs OutputRunProofs OutputRuns.
Import ListNotations.
Local Open Scope Z_scope.

Section Output.
  Variable R : Type.
  Variable rcompile : str -> res R.
  Variable rsearch : R -> str -> bool.
  Variable parse_time : str -> res Z.
  Variable debug : bool.
  Variable case : case_mode.
  Variable registered : list plugin.
  Variable init_plugin : str -> res unit.
  Variable reference_value : str * str -> str -> res value.
  Variable score : test R -> Z.
  Variable other : entry -> str -> option value.
  Variable plugin_value : entry -> str * str -> option value.
  Variable cwd : str.
  Variable device : str -> Z.
  Variable listing : str -> list file.
  Variable human : ty -> Z -> str.
  Variable st : style.
  Variable env : str.
  Variable follow all : bool.
  Variable separator : str.
  Variable link : entry -> str.
  Variable broken : entry -> bool.
  Variable reverse : bool.
  Variable rendered : entry -> bool.
  Notation honest := (honest registered init_plugin other plugin_value).
  Notation sensible_args := (sensible_args R rcompile parse_time debug case registered init_plugin reference_value).
  Notation real_directories := (real_directories cwd listing).
  Notation Reported := (Reported R rcompile rsearch parse_time debug case registered init_plugin reference_value other plugin_value cwd device listing).
  Notation excluded a := (search_excluded R rcompile rsearch parse_time debug case registered init_plugin reference_value score other
    plugin_value (process_arguments a)).
  Notation matched a := (search_matched R rcompile rsearch parse_time debug case registered init_plugin reference_value score other
    plugin_value (process_arguments a)).
  Notation roots_of a := (search_roots cwd device listing (process_arguments a)).
  Notation get := (entry_value other plugin_value).
  Notation cget := (fun c : centry => get (c_entry c)).
  Notation complete := (fun e : entry => CEntry e (link e) (broken e)).
  Notation print fields sort limit l := (print_collected other plugin_value human st follow all separator link broken fields sort reverse limit l).
  Notation has_line := (has_line other plugin_value human st follow all separator link broken).
  (** The assumptions of C75, and that no start directory is given twice *)
  Notation sensible a ess := (honest /\ sensible_args a ess /\ real_directories a /\ NoDup (map (start_path cwd (absolute_paths a)) (a_directories a))).
  (** Plain or coloured output, LS_COLORS being set; and nothing but
      directories is reported in the root directory. *)
  Notation printable a ess := ((st = Plain \/ (env <> [] /\ st = Coloured (read_colours env))) /\
    forall e, Reported a ess e -> is_dir (complete e) = true \/ e_dir e <> [SLASH]).
  Notation setup a fields sort := (setup_fields registered init_plugin (process_arguments a) = Ok (fields, sort)).

  (** C82: at the end of a search with --sort or --limit the lines printed are
      those of the selected part of the sorted list of all files to be
      reported.  (prompt, punctual: as in C76) *)
  Theorem C82_collected_partial : forall a ess fields sort limit jobs halt timeout,
    sensible a ess -> printable a ess -> setup a fields sort -> (0 < jobs)%nat ->
    (forall s f, sort = Some s -> In f s -> f_modifier f <> Some ($"v")) ->
    exists roots, roots_of a = Ok roots /\ forall ls s,
    WalkModel.run entry (excluded a) (matched a) rendered Collect jobs halt true true timeout (initial entry jobs roots) ls s -> main_ s = MPassed ->
    exists found sorted part lines, NoDup found /\ (forall e, In e found <-> Reported a ess e) /\
      Ordered get sort reverse found sorted /\ Limited limit sorted part /\
      print fields sort limit (results Collect s) = Ok lines /\ Lines cget human st env all separator fields (map complete part) lines.
  Proof.
    intros a ess fields sort limit jobs halt timeout (H1 & H2 & H3 & H4) (H5 & H6) H7.
    exact (printed R rcompile rsearch parse_time debug case registered init_plugin reference_value score other plugin_value cwd device listing
      human st env follow all separator link broken reverse a ess H1 H2 H3 H4 H5 H6 fields sort H7 limit rendered jobs halt timeout).
  Qed.
  (** Without them every process prints what it finds: one line for each file
      to be reported that has all values, in some order. *)
  Theorem C82_immediate_partial : forall a ess fields sort jobs halt punctual timeout,
    sensible a ess -> printable a ess -> setup a fields sort -> (0 < jobs)%nat ->
    exists roots, roots_of a = Ok roots /\ forall ls s,
    WalkModel.run entry (excluded a) (matched a) (has_line fields) Console jobs halt true punctual timeout (initial entry jobs roots) ls s -> main_ s = MPassed ->
    exists lines, NoDup (results Console s) /\
      (forall e, In e (results Console s) <-> Reported a ess e /\ ~ Suppressed cget all (complete e) fields) /\
      entry_lines other plugin_value human st follow all separator link broken fields (results Console s) = Ok lines /\
      length lines = length (results Console s) /\ Lines cget human st env all separator fields (map complete (results Console s)) lines.
  Proof.
    intros a ess fields sort jobs halt punctual timeout (H1 & H2 & H3 & H4) (H5 & H6) H7.
    exact (printed_immediately R rcompile rsearch parse_time debug case registered init_plugin reference_value score other plugin_value cwd device listing
      human st env follow all separator link broken a ess H1 H2 H3 H4 H5 H6 fields sort H7 jobs halt punctual timeout).
  Qed.
  (** --json *)
  Theorem C82_json_partial : forall a ess fields sort limit jobs halt timeout,
    sensible a ess -> setup a fields sort -> (0 < jobs)%nat ->
    (forall s f, sort = Some s -> In f s -> f_modifier f <> Some ($"v")) ->
    exists roots, roots_of a = Ok roots /\ forall ls s,
    WalkModel.run entry (excluded a) (matched a) rendered Collect jobs halt true true timeout (initial entry jobs roots) ls s -> main_ s = MPassed ->
    exists found sorted part records, NoDup found /\ (forall e, In e found <-> Reported a ess e) /\
      Ordered get sort reverse found sorted /\ Limited limit sorted part /\
      Forall2 (fun e r => IsRecord cget human (complete e) fields r) part records /\
      print_json other plugin_value human link broken fields sort reverse limit (results Collect s)
        = Ok ($"[" ++ join_with ($",") (map dumps records) ++ $"]" ++ [10%N]).
  Proof.
    intros a ess fields sort limit jobs halt timeout (H1 & H2 & H3 & H4) H7.
    exact (printed_json R rcompile rsearch parse_time debug case registered init_plugin reference_value score other plugin_value cwd device listing
      human Plain [] link broken reverse a ess H1 H2 H3 H4 (or_introl eq_refl) fields sort H7 limit rendered jobs halt timeout).
  Qed.
  (** --count, however the results arrive *)
  Theorem C82_count_partial : forall a ess cfields jobs halt timeout, sensible a ess -> (0 < jobs)%nat ->
    count_fields registered init_plugin (match a_count (process_arguments a) with Some l => l | None => [] end) = Ok cfields ->
    NoDup (map ident cfields) -> NoDup ($"_total" :: map f_alias cfields) ->
    (forall f, In f cfields -> f_modifier f = Some ($"h") -> f_type f <> TMode /\ f_type f <> TTime) ->
    exists roots, roots_of a = Ok roots /\ forall ls s chunks,
    WalkModel.run entry (excluded a) (matched a) rendered Collect jobs halt true true timeout (initial entry jobs roots) ls s -> main_ s = MPassed ->
    concat chunks = results Collect s ->
    exists found, NoDup found /\ (forall e, In e found <-> Reported a ess e) /\
      (forall lines, count_output human get cfields false chunks = Ok (AsLines lines) ->
         forall line, In line lines <-> Line get human cfields found line) /\
      exists d, count_output human get cfields true chunks = Ok (AsJson d) /\ NoDup (map fst d) /\
        (forall n x, In (n, x) d -> Item get human cfields found n x) /\
        (forall n x, Item get human cfields found n x -> exists y, In (n, y) d).
  Proof.
    intros a ess cfields jobs halt timeout (H1 & H2 & H3 & H4).
    exact (counted R rcompile rsearch parse_time debug case registered init_plugin reference_value score other plugin_value cwd device listing
      human Plain [] a ess H1 H2 H3 H4 (or_introl eq_refl) cfields rendered jobs halt timeout).
  Qed.

  (** C83: if the sort keys tell the files to be reported apart, the output is
      always the same. *)
  Theorem C83_same_partial : forall a ess fields so limit rendered' jobs halt timeout jobs' halt' timeout',
    sensible a ess -> setup a fields (Some so) -> (0 < jobs)%nat -> (0 < jobs')%nat ->
    (forall e e', Reported a ess e -> Reported a ess e' -> render get so e = render get so e' -> e = e') ->
    exists roots, roots_of a = Ok roots /\ forall ls s ls' s' lines,
    WalkModel.run entry (excluded a) (matched a) rendered Collect jobs halt true true timeout (initial entry jobs roots) ls s -> main_ s = MPassed ->
    WalkModel.run entry (excluded a) (matched a) rendered' Collect jobs' halt' true true timeout' (initial entry jobs' roots) ls' s' -> main_ s' = MPassed ->
    print fields (Some so) limit (results Collect s) = Ok lines -> print fields (Some so) limit (results Collect s') = Ok lines.
  Proof.
    intros a ess fields so limit rendered' jobs halt timeout jobs' halt' timeout' (H1 & H2 & H3 & H4) H7 J J'.
    exact (printed_same R rcompile rsearch parse_time debug case registered init_plugin reference_value score other plugin_value cwd device listing
      human st follow all separator link broken reverse a ess H1 H2 H3 H4 fields (Some so) limit rendered rendered' so jobs halt timeout jobs' halt' timeout' J J' eq_refl).
  Qed.

  (** C84: "-o file" shows all attributes of files, and they do not prevent a
      line from being printed. *)
  Theorem C84_file : forall a before after x y, honest ->
    a_output a = before ++ $"file" :: after -> ~ In ($"file") before ->
    output_fields registered init_plugin before = Ok x -> output_fields registered init_plugin after = Ok y -> a_sort a = None ->
    exists fields, setup_fields registered init_plugin a = Ok (fields, None) /\
      fields = x ++ map shown_anyway (p_attrs file_plugin) ++ y /\
      forall e, Suppressed cget all (complete e) fields <-> Suppressed cget all (complete e) (x ++ y).
  Proof.
    intros a before after x y H1.
    exact (file_all registered init_plugin (proj1 H1) (proj1 (proj2 H1)) other plugin_value all link broken a before after x y).
  Qed.
End Output.
Print Assumptions C82_collected_partial.
Print Assumptions C82_immediate_partial.
Print Assumptions C82_json_partial.
Print Assumptions C82_count_partial.
Print Assumptions C83_same_partial.
Print Assumptions C84_file.

(** ff name%*.py size+5 src -e name=old -H --xdev -d 0-1 -o size:4 -o path -S size -R --limit=1 *)
Notation ex_reported := (Reported str ex_compile ex_re ex_time false CaseSmart ex_registered ex_init ex_reference ex_other ex_plugin ($"/home") ex_device ex_listing
  ex_sorted ex_meaning).
Example C82_example : honest ex_registered ex_init ex_other ex_plugin /\
  sensible_args str ex_compile ex_time false CaseSmart ex_registered ex_init ex_reference ex_sorted ex_meaning /\
  real_directories ($"/home") ex_listing ex_sorted /\
  NoDup (map (start_path ($"/home") (absolute_paths ex_sorted)) (a_directories ex_sorted)) /\
  (forall e, ex_reported e -> is_dir (complete ex_link ex_broken e) = true \/ e_dir e <> [SLASH]) /\
  setup_fields ex_registered ex_init (process_arguments ex_sorted) = Ok (ex_fields, Some ex_sort) /\
  search_roots ($"/home") ex_device ex_listing (process_arguments ex_sorted) = Ok ex_roots /\
  exists ls s, WalkModel.run entry sorted_excluded sorted_matched every Collect 1 false true true 1 (initial entry 1 ex_roots) ls s /\
    main_ s = MPassed /\ map e_path (results Collect s) = [$"src/a.py"; $"src/lib/e.py"] /\
    print_collected ex_other ex_plugin ex_human Plain false false ($" ") ex_link ex_broken ex_fields (Some ex_sort) true (Some (0, Some 1)) (results Collect s)
      = Ok [$"  12 src/lib/e.py"] /\
    map (render (entry_value ex_other ex_plugin) ex_sort) (results Collect s) = [Ok (PList [PInt 10]); Ok (PList [PInt 12])].
Proof.
  split; [exact ex_honest|]. split; [exact ex_sensible|]. split; [exact ex_real|]. split; [repeat constructor; intros []|].
  split; [exact ex_not_root|]. split; [exact ex_setup|]. split; [exact ex_roots_eq|]. exact ex_collected.
Qed.
(** Sizes tell the files to be reported by this search apart. *)
Example C83_example : forall e e', ex_reported e -> ex_reported e' ->
  render (entry_value ex_other ex_plugin) ex_sort e = render (entry_value ex_other ex_plugin) ex_sort e' -> e = e'.
Proof. exact ex_apart. Qed.
Example C84_example : expand_file (get_file_attributes ex_registered) [$"size"; $"file"] = $"size" :: map (fun p => fst p ++ $":n") (p_attrs file_plugin) /\
  output_fields ex_registered ex_init [$"size"] = Ok ex_sort.
Proof. split; vm_compute; reflexivity. Qed.
