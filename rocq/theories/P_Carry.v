(** Property C99: ignore files in a whole search. *)
From Coq Require Import List NArith ZArith Bool Lia.
From Verif Require Import Py ArgumentsSpec GlobSpec PathSpec IgnoreSpec GrammarSpec TypeSpec WalkModel WalkSpec.
From Verif Require Import EntryModel TypeModel RegistryModel TestModel ArgumentsModel SearchModel SearchSpec SearchRuns CarryModel CarrySpec
  CarrySearchProofs CarryWhereProofs CarryRuns.
Import ListNotations.
Local Open Scope Z_scope.

Section Search.
  (** Whatever the regular expressions, the times, the other plugins and the
      order of the tests are, *)
  Variable R : Type.
  Variable rcompile : str -> res R.
  Variable rsearch : R -> str -> bool.
  Variable parse_time : str -> res Z.
  Variable debug : bool.
  Variable case : case_mode.
  Variable registered : list plugin.
  Variable init_plugin : str -> res unit.
  Variable reference_value : str * str -> str -> res value.
  Variable score : test R -> Z.
  Variable other : entry -> str -> option value.
  Variable plugin_value : entry -> str * str -> option value.
  (** and for all trees, ignore files and patterns in them *)
  Variable cwd : str.
  Variable device : str -> Z.
  Variable listing : str -> list file.
  Variable ignore_files : list str.
  Variable exists_ : str -> bool.
  Variable read : str -> option (list str).
  Variable no_parent : bool.
  Variable patterns : list str -> str -> option (list pattern).
  Variable comps : str -> list str.
  Variable above : str -> list (list str * str).
  Variable rendered : entry -> bool.
  Variable m : mode.
  Variable jobs : nat.
  Variable halt prompt punctual : bool.
  Variable timeout : Z.
  Notation honest := (honest registered init_plugin other plugin_value).
  Notation ready := (ignore_ready registered init_plugin).
  Notation sensible_args := (sensible_args R rcompile parse_time debug case registered init_plugin reference_value).
  Notation real_directories := (real_directories cwd listing).
  Notation orderly a := (orderly_starts ignore_files patterns cwd device listing comps above read
    (full_parents ignore_files exists_ no_parent cwd a) a).
  Notation values a := (ignore_values ignore_files patterns cwd device listing comps above a plugin_value).
  Notation ignored_by a := (ignored_by ignore_files patterns cwd listing comps above a).
  Notation Reported pv := (Reported R rcompile rsearch parse_time debug case registered init_plugin reference_value other pv cwd device listing).
  Notation excluded a := (carry_excluded read plugin_value R rcompile rsearch parse_time debug case registered init_plugin reference_value score other
    (process_arguments a)).
  Notation matched a := (carry_matched read plugin_value R rcompile rsearch parse_time debug case registered init_plugin reference_value score other
    (process_arguments a)).
  Notation run a := (WalkModel.run carrier (excluded a) (matched a) (fun c => rendered (fst c)) m jobs halt prompt punctual timeout).
  Notation roots_of a := (carry_roots ignore_files cwd device listing exists_ no_parent (process_arguments a)).

  (** What is reported satisfies the whole request, where the plugin "ignore"
      says what the ignore files say; nothing is reported twice. *)
  Theorem C99_sound : forall a ess, honest -> ready -> sensible_args a ess -> real_directories a -> orderly a ->
    exists roots pv, roots_of a = Ok roots /\ values a pv /\ forall ls s, run a (initial carrier jobs roots) ls s ->
    (forall c, In c (results m s) -> Reported pv a ess (fst c) /\ processable m rendered (fst c)) /\
    (NoDup (map (start_path cwd (absolute_paths a)) (a_directories a)) -> NoDup (map fst (results m s))).
  Proof.
    intros a ess H1 H2 H3 H4 H5.
    exact (carry_sound ignore_files exists_ no_parent patterns read R rcompile rsearch parse_time debug case registered init_plugin reference_value score
      other plugin_value cwd device listing comps above a ess H1 H2 H3 H4 H5 rendered m jobs halt prompt punctual timeout).
  Qed.
  (** Everything is reported under the restrictions of C76. *)
  Theorem C99_complete_partial : forall a ess, honest -> ready -> sensible_args a ess -> real_directories a -> orderly a ->
    (0 < jobs)%nat -> prompt = true -> (m = Collect -> punctual = true) ->
    exists roots pv, roots_of a = Ok roots /\ values a pv /\ forall ls s, run a (initial carrier jobs roots) ls s -> main_ s = MPassed ->
    forall e, In e (map fst (results m s)) <-> Reported pv a ess e /\ processable m rendered e.
  Proof.
    intros a ess H1 H2 H3 H4 H5.
    exact (carry_complete ignore_files exists_ no_parent patterns read R rcompile rsearch parse_time debug case registered init_plugin reference_value score
      other plugin_value cwd device listing comps above a ess H1 H2 H3 H4 H5 rendered m jobs halt prompt punctual timeout).
  Qed.
  Theorem C99_ends : forall a ess, honest -> ready -> sensible_args a ess -> real_directories a -> 0 < timeout ->
    exists roots, roots_of a = Ok roots /\ forall ls s, run a (initial carrier jobs roots) ls s -> healthy s ->
    exists ls' s', run a s ls' s' /\ ~ In LStop ls' /\ main_ s' = MPassed.
  Proof.
    intros a ess H1 H2 H3 H4.
    exact (carry_ends ignore_files exists_ no_parent read R rcompile rsearch parse_time debug case registered init_plugin reference_value score
      other plugin_value cwd device listing a ess H1 H2 H3 H4 rendered m jobs halt prompt punctual timeout).
  Qed.
  (** The test that -I stands for *)
  Theorem C99_meaning : forall a pv d names f e, ready -> values a pv -> In d (a_directories a) -> Place (contents cwd listing a d) names f ->
    entry_at cwd device a d names f e ->
    Holds R rcompile rsearch parse_time debug case registered init_plugin reference_value (attribute_value other pv e) ($"ignored=yes") <->
    exists by_, ignored_by a d names f by_.
  Proof.
    intros a pv d names f e H1 H2.
    exact (holds_ignored ignore_files patterns R rcompile rsearch parse_time debug case registered init_plugin reference_value other plugin_value pv cwd device listing
      comps above a H1 H2 d names f e).
  Qed.
  (** With -I, neither what is reported nor a directory on the way to it is
      ignored. *)
  Theorem C99_none : forall a ess pv e, ready -> values a pv -> real_directories a -> a_ignore a = true -> Reported pv a ess e ->
    exists d names f, In d (a_directories a) /\ Place (contents cwd listing a d) names f /\ entry_at cwd device a d names f e /\
      forall k l g by_, names = k ++ l -> k <> [] -> Place (contents cwd listing a d) k g -> ~ ignored_by a d k g by_.
  Proof.
    intros a ess pv e H1 H2.
    exact (none_ignored ignore_files patterns R rcompile rsearch parse_time debug case registered init_plugin reference_value other plugin_value pv cwd device listing
      comps above a H1 H2 ess e).
  Qed.
  (** -I takes away exactly what is ignored or below something ignored. *)
  Theorem C99_exactly : forall a ess pv e, ready -> values a pv -> real_directories a -> a_ignore a = true ->
    Reported pv a ess e <->
    exists d names f, In d (a_directories a) /\ Place (contents cwd listing a d) names f /\ entry_at cwd device a d names f e /\
      (forall k l g e', names = k ++ l -> k <> [] -> Place (contents cwd listing a d) k g -> entry_at cwd device a d k g e' ->
         ~ Excluded R rcompile rsearch parse_time debug case registered init_plugin reference_value other pv (no_ignore a) k e' /\
         ~ exists by_, ignored_by a d k g by_) /\
      (ranges a <> [] -> in_ranges (ranges a) (Z.of_nat (length names) - 1)) /\
      Satisfied (fun s => Holds R rcompile rsearch parse_time debug case registered init_plugin reference_value (attribute_value other pv e) s) ess.
  Proof.
    intros a ess pv e H1 H2.
    exact (reported_ignore ignore_files patterns R rcompile rsearch parse_time debug case registered init_plugin reference_value other plugin_value pv cwd device listing
      comps above a H1 H2 ess e).
  Qed.
  (** The file that counts is in a directory on the way from the start
      directory, or above it, the latter with -I and without --no-parent-ignore only. *)
  Theorem C99_where : forall a d names f dir n, orderly a -> In d (a_directories a) -> ignored_by a d names f (dir, n) -> real_directories a ->
    Place (contents cwd listing a d) names f ->
    (exists k l g, names = k ++ l /\ l <> [] /\ dir = comps d ++ k /\ In n ignore_files /\ Place (contents cwd listing a d) (k ++ [n]) g) \/
    (no_parent = false /\ a_ignore a = true /\ In (file_in dir n) (full_parents ignore_files exists_ no_parent cwd a d) /\
     exists rest, comps d = dir ++ rest).
  Proof. exact (ignored_where ignore_files patterns cwd device listing comps above exists_ read no_parent). Qed.
End Search.
Print Assumptions C99_where.
Print Assumptions C99_sound.
Print Assumptions C99_complete_partial.
Print Assumptions C99_ends.
Print Assumptions C99_meaning.
Print Assumptions C99_none.
Print Assumptions C99_exactly.

(** ff -I type=f src *)
Example C99_example : honest cr_registered ex_init ex_other ex_plugin /\ ignore_ready cr_registered ex_init /\
  sensible_args str ex_compile ex_time false CaseSmart cr_registered ex_init ex_reference cr_search cr_meaning /\
  real_directories ($"/home") cr_listing cr_search /\
  orderly_starts cr_files cr_patterns ($"/home") ex_device cr_listing cr_comps cr_above cr_read
    (full_parents cr_files cr_exists false ($"/home") cr_search) cr_search /\
  carry_roots cr_files ($"/home") ex_device cr_listing cr_exists false (process_arguments cr_search) = Ok cr_roots /\
  exists ls s, WalkModel.run carrier cr_excluded cr_matched cr_every Console 1 false true true 1 (initial carrier 1 cr_roots) ls s /\
    main_ s = MPassed /\
    map (fun c => e_path (fst c)) (results Console s) = [$"src/a.py"; $"src/keep.pyc"; $"src/.gitignore"; $"src/lib/.gitignore"; $"src/lib/e.py"].
Proof. exact (conj cr_honest (conj cr_ready (conj cr_sensible (conj cr_real (conj cr_orderly (conj cr_roots_eq cr_run)))))). Qed.

(** It is not complete without the restrictions: the same search reports
    nothing. *)
Theorem C99_refuted : exists roots pv ls s e,
  carry_roots cr_files ($"/home") ex_device cr_listing cr_exists false (process_arguments cr_search) = Ok roots /\
  ignore_values cr_files cr_patterns ($"/home") ex_device cr_listing cr_comps cr_above cr_search ex_plugin pv /\
  WalkModel.run carrier cr_excluded cr_matched cr_every Console 1 false false true 1 (initial carrier 1 roots) ls s /\
  main_ s = MPassed /\
  Reported str ex_compile ex_re ex_time false CaseSmart cr_registered ex_init ex_reference ex_other pv ($"/home") ex_device cr_listing
    cr_search cr_meaning e /\ processable Console every e /\ ~ In e (map fst (results Console s)).
Proof. exact cr_refuted. Qed.
Print Assumptions C99_refuted.
