(** Property C122: searches combine like their arguments. *)
From Coq Require Import List NArith ZArith Bool.
From Verif Require Import Py GrammarSpec TypeSpec WalkModel WalkSpec.
From Verif Require Import EntryModel TypeModel RegistryModel TestModel ArgumentsModel SearchModel SearchSpec SearchRuns LawSpec LawProofs.
Import ListNotations.
Local Open Scope Z_scope.

Section Law.
  (** Whatever the regular expressions, the times, the plugins and the order of
      the tests are *)
  Variable R : Type.
  Variable rcompile : str -> res R.
  Variable rsearch : R -> str -> bool.
  Variable parse_time : str -> res Z.
  Variable debug : bool.
  Variable case : case_mode.
  Variable registered : list plugin.
  Variable init_plugin : str -> res unit.
  Variable reference_value : str * str -> str -> res value.
  Variable score : test R -> Z.
  Variable other : entry -> str -> option value.
  Variable plugin_value : entry -> str * str -> option value.
  Variable cwd : str.
  Variable device : str -> Z.
  Variable listing : str -> list file.
  Variable rendered : entry -> bool.
  Variable m : mode.
  Notation honest := (honest registered init_plugin other plugin_value).
  Notation sensible_args := (sensible_args R rcompile parse_time debug case registered init_plugin reference_value).
  Notation real_directories := (real_directories cwd listing).
  Notation excluded a := (search_excluded R rcompile rsearch parse_time debug case registered init_plugin reference_value score other
    plugin_value (process_arguments a)).
  Notation matched a := (search_matched R rcompile rsearch parse_time debug case registered init_plugin reference_value score other
    plugin_value (process_arguments a)).
  Notation roots_of a := (search_roots cwd device listing (process_arguments a)).
  (** l is what a search with the arguments a has found when it has ended
      normally, with any number of processes and any schedule in which no
      process overlooks its work (see C76). *)
  Definition Finds (a : pargs) (l : list entry) : Prop :=
    exists jobs halt timeout roots ls s, (0 < jobs)%nat /\ roots_of a = Ok roots /\
      WalkModel.run entry (excluded a) (matched a) rendered m jobs halt true true timeout (initial entry jobs roots) ls s /\
      main_ s = MPassed /\ l = results m s.
  Notation the_law law := (law R rcompile rsearch parse_time debug case registered init_plugin reference_value score other
    plugin_value cwd device listing rendered m).

  (** There are such searches. *)
  Theorem C122_exists_partial : forall a ess, honest -> sensible_args a ess -> real_directories a -> exists l, Finds a l.
  Proof. exact (the_law finds_exists). Qed.

  (** OR: the results of both *)
  Theorem C122_or_partial : forall a ts1 ts2 ess1 ess2 o l1 l2 l, honest -> real_directories a ->
    sensible_args (set_tests a ts1) ess1 -> sensible_args (set_tests a ts2) ess2 -> no_empty ess1 -> no_empty ess2 -> is_OR o ->
    Finds (set_tests a ts1) l1 -> Finds (set_tests a ts2) l2 -> Finds (set_tests a (ts1 ++ [o] ++ ts2)) l ->
    forall e, In e l <-> In e l1 \/ In e l2.
  Proof.
    exact (fun a ts1 ts2 ess1 ess2 o l1 l2 l Ho Rd S1 S2 N1 N2 => the_law law_or a Ho ts1 ts2 ess1 ess2 S1 S2 N1 N2 Rd o l1 l2 l).
  Qed.
  (** AND, with brackets: the results common to both *)
  Theorem C122_and_partial : forall a ts1 ts2 ess1 ess2 o1 c1 o2 c2 l1 l2 l, honest -> real_directories a ->
    sensible_args (set_tests a ts1) ess1 -> sensible_args (set_tests a ts2) ess2 -> no_empty ess1 -> no_empty ess2 ->
    is_open o1 -> is_close c1 -> is_open o2 -> is_close c2 ->
    Finds (set_tests a ts1) l1 -> Finds (set_tests a ts2) l2 -> Finds (set_tests a ([o1] ++ ts1 ++ [c1; o2] ++ ts2 ++ [c2])) l ->
    forall e, In e l <-> In e l1 /\ In e l2.
  Proof.
    exact (fun a ts1 ts2 ess1 ess2 o1 c1 o2 c2 l1 l2 l Ho Rd S1 S2 N1 N2 H1 H2 H3 H4 F1 F2 F =>
      the_law law_and a Ho ts1 ts2 ess1 ess2 S1 S2 N1 N2 Rd o1 c1 o2 c2 l1 l2 l H1 H2 H3 H4 F1 F2
        (eq_rect _ (fun ts => Finds (set_tests a ts) l) F _ (and_tokens o1 c1 o2 c2 ts1 ts2))).
  Qed.
  (** NOT: the other results of the search without tests *)
  Theorem C122_not_partial : forall a ts ess n o c l0 l1 l, honest -> real_directories a ->
    sensible_args (set_tests a ts) ess -> no_empty ess -> is_NOT n -> is_open o -> is_close c ->
    Finds (set_tests a []) l0 -> Finds (set_tests a ts) l1 -> Finds (set_tests a ([n; o] ++ ts ++ [c])) l ->
    forall e, In e l <-> In e l0 /\ ~ In e l1.
  Proof.
    exact (fun a ts ess n o c l0 l1 l Ho Rd S1 N1 Hn O C F0 F1 F =>
      the_law law_not a Ho ts ess S1 N1 Rd n o c l0 l1 l Hn O C F0 F1
        (eq_rect _ (fun ts => Finds (set_tests a ts) l) F _ (not_tokens n o c ts))).
  Qed.
  (** More directories: the results of all *)
  Theorem C122_directories_partial : forall a ess ds1 ds2 l1 l2 l, honest -> sensible_args a ess ->
    real_directories (set_directories a (ds1 ++ ds2)) ->
    Finds (set_directories a ds1) l1 -> Finds (set_directories a ds2) l2 -> Finds (set_directories a (ds1 ++ ds2)) l ->
    forall e, In e l <-> In e l1 \/ In e l2.
  Proof. exact (fun a ess ds1 ds2 l1 l2 l Ho => the_law law_directories a ess Ho ds1 ds2 l1 l2 l). Qed.
  (** More ranges for --depth: the results of all *)
  Theorem C122_depth_partial : forall a ess r1 r2 l1 l2 l, honest -> r1 <> [] -> r2 <> [] ->
    sensible_args (set_depth a r1) ess -> sensible_args (set_depth a r2) ess -> real_directories a ->
    Finds (set_depth a r1) l1 -> Finds (set_depth a r2) l2 -> Finds (set_depth a (r1 ++ r2)) l ->
    forall e, In e l <-> In e l1 \/ In e l2.
  Proof. exact (fun a ess r1 r2 l1 l2 l Ho => the_law law_depth a ess Ho r1 r2 l1 l2 l). Qed.
  (** More tests for -e: the results common to all *)
  Theorem C122_exclude_partial : forall a ess x1 x2 l1 l2 l, honest ->
    sensible_args (set_exclude a x1) ess -> sensible_args (set_exclude a x2) ess -> real_directories a ->
    Finds (set_exclude a x1) l1 -> Finds (set_exclude a x2) l2 -> Finds (set_exclude a (x1 ++ x2)) l ->
    forall e, In e l <-> In e l1 /\ In e l2.
  Proof. exact (fun a ess x1 x2 l1 l2 l Ho => the_law law_exclude a ess Ho x1 x2 l1 l2 l). Qed.
  (** -e, -I, -H and --one-file-system never add a result. *)
  Theorem C122_stricter_partial : forall a ess a' l l', honest -> Stricter a a' ->
    sensible_args a ess -> sensible_args a' ess -> real_directories a ->
    Finds a l -> Finds a' l' -> incl l' l.
  Proof. exact (fun a ess a' l l' Ho => the_law law_stricter a ess Ho a' l l'). Qed.
End Law.
Print Assumptions C122_exists_partial.
Print Assumptions C122_or_partial.
Print Assumptions C122_and_partial.
Print Assumptions C122_not_partial.
Print Assumptions C122_directories_partial.
Print Assumptions C122_depth_partial.
Print Assumptions C122_exclude_partial.
Print Assumptions C122_stricter_partial.

(** ff name%*.py size+5 src -e name=old -H --xdev -d 0-1 finds src/a.py and
    src/lib/e.py; with "not ( ... )" around the tests it finds other files. *)
Notation ex_finds := (Finds str ex_compile ex_re ex_time false CaseSmart ex_registered ex_init ex_reference ex_score ex_other ex_plugin
  ($"/home") ex_device ex_listing every Console).
Notation ex_sensible_args := (sensible_args str ex_compile ex_time false CaseSmart ex_registered ex_init ex_reference).
Definition ex_tests : list str := [$"name%*.py"; $"size+5"].
Example C122_example : honest ex_registered ex_init ex_other ex_plugin /\
  real_directories ($"/home") ex_listing ex_search /\
  ex_sensible_args (set_tests ex_search ex_tests) ex_meaning /\ no_empty ex_meaning /\
  is_NOT ($"not") /\ is_OR ($"or") /\ is_open ($"(") /\ is_close ($")") /\
  (exists l, ex_finds (set_tests ex_search []) l) /\
  (exists l, ex_finds (set_tests ex_search ex_tests) l /\ map e_path l = [$"src/a.py"; $"src/lib/e.py"]) /\
  (exists l, ex_finds (set_tests ex_search ([$"not"; $"("] ++ ex_tests ++ [$")"])) l) /\
  (exists l, ex_finds (set_tests ex_search (ex_tests ++ [$"or"] ++ ex_tests)) l) /\
  (exists l, ex_finds (set_tests ex_search ([$"("] ++ ex_tests ++ [$")"; $"("] ++ ex_tests ++ [$")"])) l).
Proof.
  assert (N : no_empty ex_meaning) by (repeat constructor; discriminate).
  assert (HN : is_NOT ($"not")) by (repeat constructor).
  assert (HO : is_OR ($"or")) by (repeat constructor).
  assert (O : is_open ($"(")) by now left. assert (C : is_close ($")")) by now left.
  assert (S : ex_sensible_args (set_tests ex_search ex_tests) ex_meaning) by exact ex_sensible.
  pose proof (finds_exists str ex_compile ex_re ex_time false CaseSmart ex_registered ex_init ex_reference ex_score ex_other ex_plugin
    ($"/home") ex_device ex_listing every Console) as X.
  split; [exact ex_honest|]. split; [exact ex_real|]. split; [exact S|]. split; [exact N|]. do 4 (split; [assumption|]).
  split; [|split; [|split; [|split]]].
  - eapply X; [exact ex_honest| |exact ex_real]. eapply sensible_nil, S.
  - destruct ex_run as (ls & s & Hr & M & E). exists (results Console s). split; [|exact E].
    exists 1%nat, false, 1, ex_roots, ls, s. split; [repeat constructor|]. split; [exact ex_roots_eq|]. split; [exact Hr|]. split; [exact M|reflexivity].
  - rewrite not_tokens. eapply X; [exact ex_honest| |exact ex_real]. eapply sensible_not; try eassumption; exact ($"/home") || exact ex_device.
  - eapply X; [exact ex_honest| |exact ex_real]. eapply sensible_or; try eassumption; exact ($"/home") || exact ex_device.
  - rewrite and_tokens. eapply X; [exact ex_honest| |exact ex_real]. eapply sensible_and; try eassumption; exact ($"/home") || exact ex_device.
Qed.
(** Depths 0 and 1 apart, "-e name=old" and "-e size+5" apart, src twice, and
    without -H and --one-file-system: these are searches, too. *)
Example C122_others :
  ex_sensible_args (set_depth ex_search [(0, Some 0)]) ex_meaning /\ ex_sensible_args (set_depth ex_search [(1, Some 1)]) ex_meaning /\
  ex_sensible_args (set_exclude ex_search [$"name=old"]) ex_meaning /\ ex_sensible_args (set_exclude ex_search [$"size+5"]) ex_meaning /\
  real_directories ($"/home") ex_listing (set_directories ex_search ([$"src"] ++ [$"src"])) /\
  Stricter (set_exclude ex_search []) ex_search /\ ex_sensible_args (set_exclude ex_search []) ex_meaning.
Proof.
  assert (T : is_test ($"size+5")) by not_token. destruct ex_sensible as (A & B & C & D & E & F).
  assert (G : forall r, Forall ArgumentsSpec.natural_range r -> ex_sensible_args (set_depth ex_search r) ex_meaning).
  { intros r Hr. split; [exact A|]. split; [exact B|]. split; [exact Hr|].
    split; [right; right; repeat constructor; discriminate|]. split; [exact E|exact F]. }
  assert (H : forall x, Forall (fun t => is_test t /\ Legal str ex_compile ex_time false CaseSmart ex_registered ex_init ex_reference t) x ->
     ex_sensible_args (set_exclude ex_search x) ex_meaning).
  { intros x Hx. split; [exact A|]. split; [exact B|]. split; [exact C|]. split; [exact D|]. split; [exact Hx|exact F]. }
  split; [apply G; repeat constructor; discriminate|]. split; [apply G; repeat constructor; discriminate|].
  split; [apply H; exact E|]. split; [apply H; constructor; [split; [exact T|exact ex_legal_size]|constructor]|].
  split; [|split; [|apply H; constructor]].
  - intros d [<-|[<-|[]]]; exact (ex_real _ (or_introl eq_refl)).
  - apply (stricter (set_exclude ex_search []) [$"name=old"] false true true); cbn; auto. intros x [].
Qed.
