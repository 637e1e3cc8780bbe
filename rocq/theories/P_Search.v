(** Properties C75 and C76: what a whole search reports. *)
From Coq Require Import List NArith ZArith Bool Lia.
From Verif Require Import Py GrammarSpec TypeSpec WalkModel WalkSpec.
From Verif Require Import EntryModel TypeModel RegistryModel TestModel ArgumentsModel SearchModel SearchSpec SearchEndProofs SearchRuns.
Import ListNotations.
Local Open Scope Z_scope.

Section Search.
  (** Whatever the regular expressions, the times, the plugins and the order of
      the tests are *)
  Variable R : Type.
  Variable rcompile : str -> res R.
  Variable rsearch : R -> str -> bool.
  Variable parse_time : str -> res Z.
  Variable debug : bool.
  Variable case : case_mode.
  Variable registered : list plugin.
  Variable init_plugin : str -> res unit.
  Variable reference_value : str * str -> str -> res value.
  Variable score : test R -> Z.
  Variable other : entry -> str -> option value.
  Variable plugin_value : entry -> str * str -> option value.
  Variable cwd : str.
  Variable device : str -> Z.
  Variable listing : str -> list file.
  Variable rendered : entry -> bool.
  Variable m : mode.
  Variable jobs : nat.
  Variable halt prompt punctual : bool.
  Variable timeout : Z.
  Notation honest := (honest registered init_plugin other plugin_value).
  Notation sensible_args := (sensible_args R rcompile parse_time debug case registered init_plugin reference_value).
  Notation real_directories := (real_directories cwd listing).
  Notation Reported := (Reported R rcompile rsearch parse_time debug case registered init_plugin reference_value other plugin_value cwd device listing).
  (** The runs of a search with arguments a *)
  Notation excluded a := (search_excluded R rcompile rsearch parse_time debug case registered init_plugin reference_value score other
    plugin_value (process_arguments a)).
  Notation matched a := (search_matched R rcompile rsearch parse_time debug case registered init_plugin reference_value score other
    plugin_value (process_arguments a)).
  Notation run a := (WalkModel.run entry (excluded a) (matched a) rendered m jobs halt prompt punctual timeout).
  Notation roots_of a := (search_roots cwd device listing (process_arguments a)).

  (** C75: at every moment, what has been reported satisfies the whole request,
      and nothing is reported twice. *)
  Theorem C75_sound : forall a ess, honest -> sensible_args a ess -> real_directories a ->
    exists roots, roots_of a = Ok roots /\ forall ls s, run a (initial entry jobs roots) ls s ->
    (forall e, In e (results m s) -> Reported a ess e /\ processable m rendered e) /\
    (NoDup (map (start_path cwd (absolute_paths a)) (a_directories a)) -> NoDup (results m s)).
  Proof.
    intros a ess H1 H2 H3.
    exact (search_sound R rcompile rsearch parse_time debug case registered init_plugin reference_value score other plugin_value
      cwd device listing a ess H1 H2 H3 rendered m jobs halt prompt punctual timeout).
  Qed.

  (** C76, if queue.Empty is not raised while something is in the queue, and if
      the main process is not late at the barrier *)
  Theorem C76_complete_partial : forall a ess, honest -> sensible_args a ess -> real_directories a ->
    (0 < jobs)%nat -> prompt = true -> (m = Collect -> punctual = true) ->
    exists roots, roots_of a = Ok roots /\ forall ls s, run a (initial entry jobs roots) ls s -> main_ s = MPassed ->
    forall e, In e (results m s) <-> Reported a ess e /\ processable m rendered e.
  Proof.
    intros a ess H1 H2 H3.
    exact (search_complete R rcompile rsearch parse_time debug case registered init_plugin reference_value score other plugin_value
      cwd device listing a ess H1 H2 H3 rendered m jobs halt prompt punctual timeout).
  Qed.
  (** As long as nothing has gone wrong, the search can end normally. *)
  Theorem C76_ends : forall a ess, honest -> sensible_args a ess -> real_directories a -> 0 < timeout ->
    exists roots, roots_of a = Ok roots /\ forall ls s, run a (initial entry jobs roots) ls s -> healthy s ->
    exists ls' s', run a s ls' s' /\ ~ In LStop ls' /\ main_ s' = MPassed.
  Proof.
    intros a ess H1 H2 H3.
    exact (search_ends R rcompile rsearch parse_time debug case registered init_plugin reference_value score other plugin_value
      cwd device listing a ess H1 H2 H3 rendered m jobs halt prompt punctual timeout).
  Qed.
End Search.
Print Assumptions C75_sound.
Print Assumptions C76_complete_partial.
Print Assumptions C76_ends.

(** ff name%*.py size+5 src -e name=old -H --xdev -d 0-1 *)
Example C75_example : honest ex_registered ex_init ex_other ex_plugin /\
  sensible_args str ex_compile ex_time false CaseSmart ex_registered ex_init ex_reference ex_search ex_meaning /\
  real_directories ($"/home") ex_listing ex_search /\
  search_roots ($"/home") ex_device ex_listing (process_arguments ex_search) = Ok ex_roots /\
  exists ls s, WalkModel.run entry ex_excluded ex_matched every Console 1 false true true 1 (initial entry 1 ex_roots) ls s /\
    main_ s = MPassed /\ map e_path (results Console s) = [$"src/a.py"; $"src/lib/e.py"].
Proof. exact (conj ex_honest (conj ex_sensible (conj ex_real (conj ex_roots_eq ex_run)))). Qed.

(** A pattern for the path and a reference to another file:
    ff 'path%s*/**/*.py' 'size+{}src/b.py' src -e name=old -H --xdev -d 0-1 *)
Example C75_deep_example : honest ex_registered ex_init ex_other ex_plugin /\
  sensible_args str ex_compile ex_time false CaseSmart ex_registered ex_init ex_reference ex_search_deep ex_meaning_deep /\
  real_directories ($"/home") ex_listing ex_search_deep /\
  search_roots ($"/home") ex_device ex_listing (process_arguments ex_search_deep) = Ok ex_roots /\
  exists ls s, WalkModel.run entry ex_excluded_deep ex_matched_deep every Console 1 false true true 1 (initial entry 1 ex_roots) ls s /\
    main_ s = MPassed /\ map e_path (results Console s) = [$"src/a.py"; $"src/lib/e.py"].
Proof. exact (conj ex_honest (conj ex_sensible_deep (conj ex_real (conj ex_roots_deep ex_run_deep)))). Qed.

(** C76 is false without these restrictions: the same search reports nothing. *)
Theorem C76_refuted : honest ex_registered ex_init ex_other ex_plugin /\
  sensible_args str ex_compile ex_time false CaseSmart ex_registered ex_init ex_reference ex_search ex_meaning /\
  real_directories ($"/home") ex_listing ex_search /\
  exists roots ls s e, search_roots ($"/home") ex_device ex_listing (process_arguments ex_search) = Ok roots /\
    WalkModel.run entry ex_excluded ex_matched every Console 1 false false true 1 (initial entry 1 roots) ls s /\
    main_ s = MPassed /\
    Reported str ex_compile ex_re ex_time false CaseSmart ex_registered ex_init ex_reference ex_other ex_plugin ($"/home") ex_device ex_listing
      ex_search ex_meaning e /\ processable Console every e /\ ~ In e (results Console s).
Proof. exact (conj ex_honest (conj ex_sensible (conj ex_real ex_refuted))). Qed.
Print Assumptions C76_refuted.
