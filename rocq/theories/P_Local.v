(** Property C124: what a result depends on, and what -e and the options in
    short take away. *)
From Coq Require Import List NArith ZArith Bool.
From Verif Require Import Py GrammarSpec PathSpec TypeSpec WalkModel WalkSpec WalkRuns.
From Verif Require Import EntryModel TypeModel RegistryModel TestModel ArgumentsModel SearchModel SearchSpec SearchRuns LawSpec LawProofs
  LocalSpec LocalProofs.
Import ListNotations.
Local Open Scope Z_scope.

Section Local.
  (** Whatever the regular expressions, the times, the plugins and the order of
      the tests are *)
  Variable R : Type.
  Variable rcompile : str -> res R.
  Variable rsearch : R -> str -> bool.
  Variable parse_time : str -> res Z.
  Variable debug : bool.
  Variable case : case_mode.
  Variable registered : list plugin.
  Variable init_plugin : str -> res unit.
  Variable reference_value : str * str -> str -> res value.
  Variable score : test R -> Z.
  Variable other : entry -> str -> option value.
  Variable plugin_value : entry -> str * str -> option value.
  Variable cwd : str.
  Variable device : str -> Z.
  Variable rendered : entry -> bool.
  Variable m : mode.
  Notation honest := (honest registered init_plugin other plugin_value).
  Notation sensible_args := (sensible_args R rcompile parse_time debug case registered init_plugin reference_value).
  Notation Legal := (Legal R rcompile parse_time debug case registered init_plugin reference_value).
  Notation excluded a := (search_excluded R rcompile rsearch parse_time debug case registered init_plugin reference_value score other
    plugin_value (process_arguments a)).
  Notation matched a := (search_matched R rcompile rsearch parse_time debug case registered init_plugin reference_value score other
    plugin_value (process_arguments a)).
  (** l is what a search with the arguments a of the tree [listing] has found
      when it has ended normally (as in C122). *)
  Definition Finds (listing : str -> list file) (a : pargs) (l : list entry) : Prop :=
    exists jobs halt timeout roots ls s, (0 < jobs)%nat /\ search_roots cwd device listing (process_arguments a) = Ok roots /\
      WalkModel.run entry (excluded a) (matched a) rendered m jobs halt true true timeout (initial entry jobs roots) ls s /\
      main_ s = MPassed /\ l = results m s.
  Notation the_law law := (law R rcompile rsearch parse_time debug case registered init_plugin reference_value score other
    plugin_value cwd device rendered m).

  (** Whether a file is found depends only on itself and the directories it is
      in: the rest of the tree may be different.  (Attributes other than those
      of lstat and the name are the same functions of the entry.) *)
  Theorem C124_local_partial : forall a ess listing listing' l l' d names f e,
    honest -> sensible_args a ess -> real_directories cwd listing a -> real_directories cwd listing' a ->
    In d (a_directories a) -> Place (contents cwd listing a d) names f -> entry_at cwd device a d names f e ->
    Agree (contents cwd listing a d) (contents cwd listing' a d) names ->
    Finds listing a l -> Finds listing' a l' -> In e l -> In e l'.
  Proof. exact (the_law local). Qed.
  (** -e x takes away what matches x and everything below it, and nothing
      else. *)
  Theorem C124_exclude_partial : forall listing a ts ess x l0 l1 l, honest -> is_test x -> Legal x ->
    sensible_args (set_tests a ts) ess -> ranges a = [] -> real_directories cwd listing a ->
    (forall e, processable m rendered e) ->
    Finds listing (set_tests a ts) l0 -> Finds listing (set_tests a [x]) l1 ->
    Finds listing (set_tests (set_exclude a (a_exclude a ++ [x])) ts) l ->
    forall e, In e l <-> In e l0 /\ forall e', Way e' e -> ~ In e' l1.
  Proof. exact (the_law exclude_below). Qed.
  (** -I, --one-file-system and -H are -e with certain tests: every run of the
      one search is a run of the other. *)
  Theorem C124_shorthand : forall listing a i o h l,
    Finds listing (set_flags a i o h) l <->
    Finds listing (set_exclude (set_flags a false false false)
      (a_exclude a ++ (if i then [$"ignored=yes"] else []) ++ (if o then [$"samedev=no"] else []) ++ (if h then [$"hide=yes"] else []))) l.
  Proof. exact (the_law shorthand). Qed.
  (** --depth 0- changes nothing. *)
  Theorem C124_unlimited_partial : forall listing a ess l l', honest -> sensible_args (no_depth a) ess ->
    no_empty ess \/ a_tests a = [] -> real_directories cwd listing a ->
    Finds listing (no_depth a) l -> Finds listing (set_depth a [(0, None)]) l' -> forall e, In e l <-> In e l'.
  Proof. exact (the_law unlimited). Qed.
End Local.
Print Assumptions C124_local_partial.
Print Assumptions C124_exclude_partial.
Print Assumptions C124_shorthand.
Print Assumptions C124_unlimited_partial.

Notation ex_finds := (Finds str ex_compile ex_re ex_time false CaseSmart ex_registered ex_init ex_reference ex_score ex_other ex_plugin
  ($"/home") ex_device every Console).
Notation ex_sensible_args := (sensible_args str ex_compile ex_time false CaseSmart ex_registered ex_init ex_reference).
(** src without src/b.py and with src/new/x.py: the same for src/lib/e.py *)
Definition ex_listing' (d : str) : list file :=
  if str_eqb d ($"src") then
    [a_dir ($"new") [a_file ($"x.py") 10]; a_file ($"a.py") 10; a_dir ($"old") [a_file ($"c.py") 10];
     a_dir ($"lib") [a_file ($"e.py") 12; a_file ($"README") 12; a_dir ($"deep") [a_file ($"f.py") 10]]]
  else [].
Example C124_example : honest ex_registered ex_init ex_other ex_plugin /\ ex_sensible_args ex_search ex_meaning /\
  real_directories ($"/home") ex_listing ex_search /\ real_directories ($"/home") ex_listing' ex_search /\
  (exists f e l l', Place (contents ($"/home") ex_listing ex_search ($"src")) [$"lib"; $"e.py"] f /\
    entry_at ($"/home") ex_device ex_search ($"src") [$"lib"; $"e.py"] f e /\
    Agree (contents ($"/home") ex_listing ex_search ($"src")) (contents ($"/home") ex_listing' ex_search ($"src")) [$"lib"; $"e.py"] /\
    ex_finds ex_listing ex_search l /\ ex_finds ex_listing' ex_search l' /\ In e l).
Proof.
  assert (Rl : real_directories ($"/home") ex_listing' ex_search).
  { intros d [<-|[]]. split; [discriminate|]. unfold contents.
    match goal with |- valid ?l => let l' := eval vm_compute in l in change l with l' end. validity. }
  split; [exact ex_honest|]. split; [exact ex_sensible|]. split; [exact ex_real|]. split; [exact Rl|].
  destruct (finds_exists str ex_compile ex_re ex_time false CaseSmart ex_registered ex_init ex_reference ex_score ex_other ex_plugin
    ($"/home") ex_device ex_listing' every Console ex_search ex_meaning ex_honest ex_sensible Rl) as (l' & F').
  set (f := a_file ($"e.py") 12).
  assert (P : Place (contents ($"/home") ex_listing ex_search ($"src")) [$"lib"; $"e.py"] f).
  { apply (place_below _ [$"lib"] (a_dir ($"lib") [a_file ($"e.py") 12; a_file ($"README") 12; a_dir ($"deep") [a_file ($"f.py") 10]]) f).
    - apply (place_here _ (a_dir ($"lib") [a_file ($"e.py") 12; a_file ($"README") 12; a_dir ($"deep") [a_file ($"f.py") 10]])).
      vm_compute. tauto.
    - vm_compute. reflexivity.
    - now left. }
  assert (X : exists e l, entry_at ($"/home") ex_device ex_search ($"src") [$"lib"; $"e.py"] f e /\ ex_finds ex_listing ex_search l /\ In e l).
  { assert (Y : exists ls s, WalkModel.run entry ex_excluded ex_matched every Console 1 false true true 1 (initial entry 1 ex_roots) ls s /\
      main_ s = MPassed /\ exists e0, entry_at ($"/home") ex_device ex_search ($"src") [$"lib"; $"e.py"] f e0 /\ In e0 (results Console s)).
    { eexists. eexists. split.
      - check. take. repeat search_work. finish. check. take. repeat search_work. finish. check. take. repeat search_work. finish.
        check. wait 1. empty. nothing. pass.
      - split; [reflexivity|]. eexists. split; [vm_compute; reflexivity|]. vm_compute. tauto. }
    destruct Y as (ls & s & Hr & M & e & At & Hin). exists e, (results Console s). split; [exact At|]. split; [|exact Hin].
    exists 1%nat, false, 1, ex_roots, ls, s. split; [repeat constructor|]. split; [exact ex_roots_eq|]. split; [exact Hr|]. split; [exact M|reflexivity]. }
  destruct X as (e & l & At & F & Hin).
  exists f, e, l, l'. split; [exact P|]. split; [exact At|]. split; [|split; [exact F|split; [exact F'|exact Hin]]].
  apply agree_other. intros g Hg. vm_compute in Hg. vm_compute contents.
  split; intros H; repeat (destruct H as [<-|H]; [try discriminate Hg; cbn; tauto|]); destruct H.
Qed.
(** The searches of the other theorems: with -e name=old, -H and
    --one-file-system, without --depth *)
Example C124_others : let a := no_depth ex_search in
  is_test ($"name=old") /\ Legal str ex_compile ex_time false CaseSmart ex_registered ex_init ex_reference ($"name=old") /\
  ex_sensible_args (set_tests a (a_tests a)) ex_meaning /\ ranges a = [] /\ real_directories ($"/home") ex_listing a /\
  (forall e, processable Console every e) /\ no_empty ex_meaning /\
  (exists l, ex_finds ex_listing (set_flags ex_search false true true) l) /\ (exists l, ex_finds ex_listing a l).
Proof.
  cbv zeta. destruct ex_sensible as (A & B & C & D & E & F).
  assert (S : ex_sensible_args (no_depth ex_search) ex_meaning).
  { split; [exact A|]. split; [exact B|]. split; [constructor|]. split; [now left|]. split; [exact E|exact F]. }
  pose proof (finds_exists str ex_compile ex_re ex_time false CaseSmart ex_registered ex_init ex_reference ex_score ex_other ex_plugin
    ($"/home") ex_device ex_listing every Console) as X.
  split; [exact (proj1 (Forall_inv E))|]. split; [exact (proj2 (Forall_inv E))|]. split; [exact S|]. split; [reflexivity|]. split; [exact ex_real|].
  split; [reflexivity|]. split; [repeat constructor; discriminate|].
  split; [exact (X ex_search ex_meaning ex_honest ex_sensible ex_real)|exact (X _ ex_meaning ex_honest S ex_real)].
Qed.
