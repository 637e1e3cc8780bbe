(** Properties C33-C37, C66: --depth, --limit, directory arguments, conflicts. *)
From Coq Require Import List NArith ZArith Bool Lia Permutation.
From Verif Require Import Py OsPath GrammarSpec ParserModel ParserProofs TypeModel RegistryModel TestModel TestProofs
  ArgsModel ArgsValueSpec ArgsValueProofs ArgsTableProofs ArgumentsModel ArgumentsSpec SliceProofs DirectoryProofs DepthProofs
  ArgumentsProofs.
Import ListNotations.
Local Open Scope Z_scope.

Section Depth.
  (** Whatever regular expressions, clock, --case, plugins, speeds and files
      are. *)
  Variable R : Type.
  Variable rcompile : str -> res R.
  Variable rsearch : R -> str -> bool.
  Variable parse_time : str -> res Z.
  Variable debug : bool.
  Variable case : case_mode.
  Variable registered : list plugin.
  Variable init_plugin : str -> res unit.
  Variable reference_value : str * str -> str -> res value.
  Variable score : test R -> Z.
  Notation parse := (parse_test R rcompile parse_time debug case registered init_plugin reference_value).
  Notation resolves := (resolves registered init_plugin).
  Notation run_test := (run_entry rsearch).

  (** C33: an entry of depth d, whose attributes are given by [attribute],
      matches if d is in one of the ranges and the expression is true.  [ess] is
      the meaning of the expression; it may not consist of ANDs only. *)
  Theorem C33_selected : forall a ranges at_ name is_dir attribute d ess v,
    a_depth a = Some ranges -> ranges <> [] -> Forall natural_range ranges ->
    resolves ($"depth") at_ TNumber -> attribute at_ = Some (VInt d) ->
    Expression (a_tests a) ess -> a_tests a = [] \/ no_empty ess ->
    (forall t, In t (a_tests a) -> is_test t ->
       exists x, parse t = Ok x /\ truth (run_test name is_dir attribute x) (v t)) ->
    exists b, matcher parse score (run_test name is_dir attribute) (a_tests (process_arguments a)) = Ok b /\
      (b = true <-> in_ranges ranges d /\ denote_alts v ess = true).
  Proof. exact (depth_selected R rcompile rsearch parse_time debug case registered init_plugin reference_value score). Qed.
  (** Entries beyond all bounds are excluded, if there are bounds, and no
      others because of --depth. *)
  Theorem C33_excluded : forall a ranges at_ name is_dir attribute d xs,
    a_depth a = Some ranges -> ranges <> [] -> Forall natural_range ranges ->
    resolves ($"depth") at_ TNumber -> attribute at_ = Some (VInt d) ->
    Forall is_test (a_exclude a) -> Forall2 (fun t x => parse t = Ok x) (a_exclude a ++ flag_tests a) xs ->
    (forall x, In x xs -> forall e, run_test name is_dir attribute x <> Raise e) ->
    exists b, excluder parse score (run_test name is_dir attribute) (a_exclude (process_arguments a)) = Ok b /\
      (b = true <-> (exists x, In x xs /\ run_test name is_dir attribute x = Val true) \/
                    (bounded ranges /\ beyond ranges d)).
  Proof. exact (depth_excluded R rcompile rsearch parse_time debug case registered init_plugin reference_value score). Qed.
End Depth.
(** The ranges that are written on the command line are like that. *)
Theorem C33_text : forall cpus s l, convert cpus TRanges s = Ok (ARanges l) -> l <> [] /\ Forall natural_range l.
Proof. exact c33_text. Qed.
Print Assumptions C33_selected.
Print Assumptions C33_excluded.
Print Assumptions C33_text.
Definition ex_plugins : list plugin := load_plugins [file_plugin].
Definition ex_parse := parse_test unit (fun _ => Err ReError) (fun _ => Err ValueError) false CaseSmart ex_plugins (fun _ => Ok tt)
  (fun _ _ => Err KeyErr).
Definition ex_args tests dirs depth limit count sort output exec : pargs :=
  PArgs tests dirs [] depth true false false None ($"auto") false count limit sort output exec None false.
Definition ex_entry (depth size : Z) (a : str * str) : option value :=
  if str_eqb (snd a) ($"depth") then Some (VInt depth) else if str_eqb (snd a) ($"size") then Some (VInt size) else None.
Definition ex_match (tests : list str) (depth size : Z) : res bool :=
  matcher ex_parse (fun _ => 0) (run_entry (fun _ _ => false) ($"n") false (ex_entry depth size)) tests.
Example C33_example :
  let a := ex_args [$"size=3"; $"or"; $"size=4"] [] (Some [(1, Some 2); (5, Some 5)]) None None None [$"path"] None in
  resolves ex_plugins (fun _ => Ok tt) ($"depth") ($"file", $"depth") TNumber /\
  a_tests (process_arguments a) =
    [$"{{"; $"depth+=1"; $"depth-=2"; $"OR"; $"depth=5"; $"}}"; $"{{"; $"size=3"; $"or"; $"size=4"; $"}}"] /\
  a_exclude (process_arguments a) = [$"ignored=yes"; $"depth+5"] /\
  ex_match (a_tests (process_arguments a)) 2 4 = Ok true /\
  ex_match (a_tests (process_arguments a)) 3 4 = Ok false /\
  ex_match (a_tests (process_arguments a)) 5 3 = Ok true /\
  ex_match (a_tests (process_arguments a)) 5 5 = Ok false.
Proof. repeat split; vm_compute; reflexivity. Qed.

(** C34: the results at the positions from start up to but excluding stop;
    an omitted start is 0 (see SliceText), an omitted stop is no bound. *)
Theorem C34_limit : forall (A : Type) cpus t start stop (l : list A), SliceText t (start, stop) ->
  convert cpus TSlice t = Ok (ASlice start stop) /\
  Picks (in_slice (Z.of_nat (length l)) (start, stop)) 0 l (entries_range (Some (start, stop)) l).
Proof. exact (fun A cpus t start stop l H => conj (proj2 (c31_limit cpus t start stop) (slice_text_plain t start stop H)) (limit_picks l start stop)). Qed.
Theorem C34_unlimited : forall (A : Type) (l : list A), entries_range None l = l.
Proof. reflexivity. Qed.
(** There is only one such selection. *)
Theorem C34_only : forall (A : Type) P i (l k k' : list A), Picks P i l k -> Picks P i l k' -> k = k'.
Proof. exact @picks_det. Qed.
Print Assumptions C34_limit.
Print Assumptions C34_unlimited.
Print Assumptions C34_only.
Example C34_example :
  entries_range (Some (-3, Some (-1))) [10; 11; 12; 13; 14] = [12; 13] /\
  entries_range (Some (2, None)) [10; 11; 12; 13; 14] = [12; 13; 14] /\
  entries_range (Some (-9, Some 2)) [10; 11; 12; 13; 14] = [10; 11] /\
  convert 1 TSlice ($"-3:-1") = Ok (ASlice (-3) (Some (-1))).
Proof. repeat split; vm_compute; reflexivity. Qed.

(** C35: page p of n results each has the results at the positions i with
    i / n = p, so no position is on two pages; all pages together are all
    results. *)
Definition page_text (n p : Z) : str := str_of_Z n ++ $"," ++ str_of_Z p.
Theorem C35_page : forall (A : Type) cpus n p (l : list A), 0 < n -> 0 <= p ->
  exists start stop, convert cpus TSlice (page_text n p) = Ok (ASlice start stop) /\
    Picks (fun i => i / n = p) 0 l (entries_range (Some (start, stop)) l).
Proof. exact (@c35_page). Qed.
Theorem C35_all : forall (A : Type) cpus n (l : list A) k pages, 0 < n -> Z.of_nat (length l) <= n * Z.of_nat k ->
  Forall2 (fun p page => exists start stop, convert cpus TSlice (page_text n (Z.of_nat p)) = Ok (ASlice start stop) /\
                           page = entries_range (Some (start, stop)) l) (seq 0 k) pages ->
  concat pages = l.
Proof. exact (@c35_all). Qed.
Print Assumptions C35_page.
Print Assumptions C35_all.
Example C35_example : map (fun p => match convert 1 TSlice (page_text 2 p) with
    | Ok (ASlice a b) => entries_range (Some (a, b)) [10; 11; 12; 13; 14] | _ => [] end) [0; 1; 2; 3] =
  [[10; 11]; [12; 13]; [14]; []].
Proof. vm_compute. reflexivity. Qed.

(** C36: in general, the arguments taken as directories are directories, and
    the others keep their order. *)
Theorem C36_taken : forall isdir cwd a a', a_directories a = [] -> process_directories isdir cwd a = Ok a' ->
  exists taken, Splits (a_tests a) (a_tests a') taken /\ Forall (names_directory isdir) taken /\
    (taken = [] -> a_directories a' = [$"."]) /\ (taken <> [] -> Permutation (a_directories a') (map normpath taken)).
Proof. exact c36_taken. Qed.
Theorem C36_disabled : forall isdir cwd a a', a_directories a <> [] -> process_directories isdir cwd a = Ok a' -> a' = a.
Proof. exact c36_given. Qed.
Theorem C36_none : forall isdir cwd a a', a_directories a = [] -> process_directories isdir cwd a = Ok a' ->
  (forall t rest, a_tests a = t :: rest -> ~ names_directory isdir t) ->
  (forall t rest, a_tests a = rest ++ [t] -> ~ names_directory isdir t) ->
  a_tests a' = a_tests a /\ a_directories a' = [$"."].
Proof. exact c36_none. Qed.
(** Directories at the start are all recognised, those at the end if there are
    none at the start and they are written once. *)
Theorem C36_front_partial : forall isdir cwd a a' lead mid, a_directories a = [] -> process_directories isdir cwd a = Ok a' ->
  a_tests a = lead ++ mid -> lead <> [] -> Forall (names_directory isdir) lead ->
  (forall t rest, mid = t :: rest -> ~ names_directory isdir t) ->
  a_tests a' = mid /\ a_directories a' = map normpath lead.
Proof. exact c36_front. Qed.
Theorem C36_back_partial : forall isdir cwd a a' mid tail, a_directories a = [] -> process_directories isdir cwd a = Ok a' ->
  a_tests a = mid ++ tail -> mid <> [] -> tail <> [] ->
  (forall t rest, mid = t :: rest -> ~ names_directory isdir t) ->
  (forall t rest, mid = rest ++ [t] -> ~ names_directory isdir t) ->
  Forall (names_directory isdir) tail -> NoDup tail -> (forall t, In t tail -> ~ In t mid) ->
  a_tests a' = mid /\ a_directories a' = map normpath (rev tail).
Proof. exact c36_back. Qed.
Print Assumptions C36_taken.
Print Assumptions C36_disabled.
Print Assumptions C36_none.
Print Assumptions C36_front_partial.
Print Assumptions C36_back_partial.
Definition ex_isdir (s : str) : bool := str_in s [$"a/"; $"b/"; $"c/d"; $"e"].
Definition ex_dirs tests := ex_args tests [] None None None None [$"path"] None.
Example C36_example :
  process_directories ex_isdir ($"/h") (ex_dirs [$"a/"; $"c/d"; $"e"; $"x=1"]) =
    Ok (ex_args [$"e"; $"x=1"] [$"a"; $"c/d"] None None None None [$"path"] None) /\
  process_directories ex_isdir ($"/h") (ex_dirs [$"x=1"; $"a/"; $"y=1"; $"c/d"; $"b/"]) =
    Ok (ex_args [$"x=1"; $"a/"; $"y=1"] [$"b"; $"c/d"] None None None None [$"path"] None).
Proof. split; vm_compute; reflexivity. Qed.
(** A directory at the start hides those at the end. *)
Theorem C36_both_refuted : exists isdir cwd a a' t rest, a_directories a = [] /\ a_tests a = rest ++ [t] /\
  names_directory isdir t /\ process_directories isdir cwd a = Ok a' /\ In t (a_tests a').
Proof.
  exists ex_isdir, ($"/h"), (ex_dirs [$"a/"; $"x=1"; $"b/"]). eexists. exists ($"b/"), [$"a/"; $"x=1"].
  split; [reflexivity|]. split; [reflexivity|]. split; [split; [cbn; tauto|reflexivity]|].
  split; [vm_compute; reflexivity|]. cbn. tauto.
Qed.
(** A directory that is neither at the start nor at the end is taken, too, if
    it is written again at the end. *)
Theorem C36_middle_refuted : exists isdir cwd a a' pre t x post, a_directories a = [] /\ a_tests a = pre ++ t :: post /\
  In x pre /\ ~ names_directory isdir x /\ (exists y, In y post /\ ~ names_directory isdir y) /\
  process_directories isdir cwd a = Ok a' /\ ~ In t (a_tests a').
Proof.
  exists ex_isdir, ($"/h"), (ex_dirs [$"x=1"; $"a/"; $"y=1"; $"a/"]). eexists.
  exists [$"x=1"], ($"a/"), ($"x=1"), [$"y=1"; $"a/"].
  split; [reflexivity|]. split; [reflexivity|]. split; [now left|]. split; [intros [_ H]; discriminate|].
  split; [exists ($"y=1"); split; [now left|intros [_ H]; discriminate]|].
  split; [vm_compute; reflexivity|]. cbn. intuition discriminate.
Qed.
Print Assumptions C36_both_refuted.
Print Assumptions C36_middle_refuted.

(** C37: two start directories that are written differently are accepted only
    if none is the other one or below it.  The place of a directory does not
    take symbolic links into account.  Not for paths with two slashes in
    front. *)
Theorem C37_partial : forall isdir cwd a a', absolute cwd = true -> ~ two_slashes cwd ->
  process_directories isdir cwd a = Ok a' ->
  forall d s, In d (a_directories a') -> In s (a_directories a') -> d <> s -> ~ two_slashes s ->
    ~ above (place cwd s) (place cwd d).
Proof. exact directories_ok. Qed.
Theorem C37_accepted : forall isdir cwd a, absolute cwd = true -> a_directories a <> [] ->
  (forall d s, In d (a_directories a) -> In s (a_directories a) -> d <> s -> ~ above (place cwd s) (place cwd d)) ->
  process_directories isdir cwd a = Ok a.
Proof. exact directories_accept. Qed.
Theorem C37_error : forall isdir cwd a e, process_directories isdir cwd a = Err e -> e = UsageError.
Proof. exact directories_err. Qed.
Print Assumptions C37_partial.
Print Assumptions C37_accepted.
Print Assumptions C37_error.
Definition ex_given dirs := ex_args [] dirs None None None None [$"path"] None.
Example C37_example :
  process_directories ex_isdir ($"/h") (ex_given [$"../h/a"; $"b"; $"/h/b/c"]) = Err UsageError /\
  process_directories ex_isdir ($"/h") (ex_given [$"a"; $"./a"]) = Err UsageError /\
  process_directories ex_isdir ($"/h") (ex_given [$"a"; $"b"; $"ab"]) = Ok (ex_given [$"a"; $"b"; $"ab"]) /\
  place ($"/h") ($"../h/a") = [$"h"; $"a"].
Proof. repeat split; vm_compute; reflexivity. Qed.
(** The same directory written in the same way twice is accepted. *)
Theorem C37_twice_refuted : exists isdir cwd a d, absolute cwd = true /\ ~ two_slashes cwd /\
  a_directories a = [d; d] /\ process_directories isdir cwd a = Ok a.
Proof.
  exists ex_isdir, ($"/h"), (ex_given [$"a"; $"a"]), ($"a"). split; [reflexivity|].
  split; [intros (r & E & _); discriminate|]. split; [reflexivity|]. vm_compute. reflexivity.
Qed.
(** So is a directory below another that begins with two slashes. *)
Theorem C37_slashes_refuted : exists isdir cwd a d s, absolute cwd = true /\ ~ two_slashes cwd /\
  a_directories a = [d; s] /\ d <> s /\ above (place cwd s) (place cwd d) /\ process_directories isdir cwd a = Ok a.
Proof.
  exists ex_isdir, ($"/h"), (ex_given [$"//a/b"; $"//a"]), ($"//a/b"), ($"//a"). split; [reflexivity|].
  split; [intros (r & E & _); discriminate|]. split; [reflexivity|]. split; [discriminate|].
  split; [now exists [$"b"]|]. vm_compute. reflexivity.
Qed.
Print Assumptions C37_twice_refuted.
Print Assumptions C37_slashes_refuted.

(** C66: options that cannot be combined are refused, nothing else is. *)
Theorem C66_refused : forall isdir cwd debug a, (exists r, process isdir cwd debug a = Ok r) <->
  (exists b, process_directories isdir cwd a = Ok b) /\ ~ conflict debug a.
Proof. exact process_ok_iff. Qed.
Theorem C66_error : forall isdir cwd debug a e, process isdir cwd debug a = Err e -> e = UsageError.
Proof. exact process_err. Qed.
(** Options without effect are switched off, with one warning each. *)
Theorem C66_warnings : forall isdir cwd debug a b w, process isdir cwd debug a = Ok (b, w) -> warned a b w.
Proof. exact process_warnings. Qed.
Print Assumptions C66_refused.
Print Assumptions C66_error.
Print Assumptions C66_warnings.
Example C66_example :
  process ex_isdir ($"/h") false (ex_args [] [] None (Some (0, None)) (Some [$"size"]) None [$"path"] None) = Err UsageError /\
  process ex_isdir ($"/h") false (ex_args [] [] None None (Some [$"size"]) None [$"path"] (Some [$"ls"])) = Err UsageError /\
  exists b, process ex_isdir ($"/h") false (ex_args [] [] None None (Some [$"size"]) (Some [$"name"]) [$"name"] None) =
    Ok (b, [SortWithCount; OutputWithCount]) /\ a_sort b = None /\ a_output b = [$"path"] /\ a_count b = Some [$"size"].
Proof. split; [vm_compute; reflexivity|]. split; [vm_compute; reflexivity|]. eexists. repeat split; vm_compute; reflexivity. Qed.
