(** Property C123: --depth and arbitrary test expressions. *)
From Coq Require Import List NArith ZArith Bool.
From Verif Require Import Py GrammarSpec ParserModel ParserProofs TypeModel RegistryModel TestModel TestProofs
  ArgumentsModel ArgumentsSpec ArgumentsProofs DepthLawSpec DepthLawProofs.
Import ListNotations.
Local Open Scope Z_scope.

Section Depth.
  (** Whatever regular expressions, clock, --case, plugins, speeds and files
      are. *)
  Variable R : Type.
  Variable rcompile : str -> res R.
  Variable rsearch : R -> str -> bool.
  Variable parse_time : str -> res Z.
  Variable debug : bool.
  Variable case : case_mode.
  Variable registered : list plugin.
  Variable init_plugin : str -> res unit.
  Variable reference_value : str * str -> str -> res value.
  Variable score : test R -> Z.
  Notation parse := (parse_test R rcompile parse_time debug case registered init_plugin reference_value).
  Notation resolves := (resolves registered init_plugin).
  Notation run_test := (run_entry rsearch).

  (** C123, intended: an expression is accepted with --depth if and only if it
      is accepted without, and it then matches the entries within the ranges
      that it matches without.

      With --depth an expression that is accepted without is accepted too and
      matches the entries within the ranges that it matches without, unless
      it consists of ANDs only. *)
  Theorem C123_conjunction_partial : forall a ranges at_ name is_dir attribute d v b,
    a_depth a = Some ranges -> ranges <> [] -> Forall natural_range ranges ->
    resolves ($"depth") at_ TNumber -> attribute at_ = Some (VInt d) ->
    a_tests a = [] \/ ~ Forall is_AND (a_tests a) ->
    (forall t, In t (a_tests a) -> is_test t ->
       exists x, parse t = Ok x /\ truth (run_test name is_dir attribute x) (v t)) ->
    matcher parse score (run_test name is_dir attribute) (a_tests a) = Ok b ->
    exists b', matcher parse score (run_test name is_dir attribute) (a_tests (process_arguments a)) = Ok b' /\
      (b' = true <-> in_ranges ranges d /\ b = true).
  Proof. exact (depth_conjunction R rcompile rsearch parse_time debug case registered init_plugin reference_value score). Qed.
  (** Whatever the expression is, if its brackets belong together, then only
      entries within the ranges match. *)
  Theorem C123_within_partial : forall a ranges at_ name is_dir attribute d v,
    a_depth a = Some ranges -> ranges <> [] -> Forall natural_range ranges ->
    resolves ($"depth") at_ TNumber -> attribute at_ = Some (VInt d) ->
    Balanced 0 (a_tests a) ->
    (forall t, In t (a_tests a) -> is_test t ->
       exists x, parse t = Ok x /\ truth (run_test name is_dir attribute x) (v t)) ->
    matcher parse score (run_test name is_dir attribute) (a_tests (process_arguments a)) = Ok true ->
    in_ranges ranges d.
  Proof. exact (depth_within R rcompile rsearch parse_time debug case registered init_plugin reference_value score). Qed.
  (** The expressions that are accepted with --depth, among those whose
      brackets belong together: the last alternative must not be empty. *)
  Theorem C123_language_partial : forall a ranges at_ name is_dir attribute d v b,
    a_depth a = Some ranges -> ranges <> [] -> Forall natural_range ranges ->
    resolves ($"depth") at_ TNumber -> attribute at_ = Some (VInt d) ->
    a_tests a <> [] -> Balanced 0 (a_tests a) ->
    (forall t, In t (a_tests a) -> is_test t ->
       exists x, parse t = Ok x /\ truth (run_test name is_dir attribute x) (v t)) ->
    (matcher parse score (run_test name is_dir attribute) (a_tests (process_arguments a)) = Ok b <->
     exists ess, Alts last_nonempty (a_tests a) ess /\ last_nonempty ess /\
       (b = true <-> in_ranges ranges d /\ denote_alts v ess = true)).
  Proof. exact (depth_language R rcompile rsearch parse_time debug case registered init_plugin reference_value score). Qed.
End Depth.
(** There is only one way to read an expression. *)
Theorem C123_one_reading : forall ts ess ess', Accepted ts ess -> Accepted ts ess' -> ess = ess'.
Proof. exact (fun ts ess ess' H H' => alts_det last_nonempty (fun _ _ K => K) ts ess ess' (proj1 H) (proj1 H')). Qed.
(** The brackets of an accepted expression belong together. *)
Theorem C123_balanced : forall ts ess, Accepted ts ess -> Balanced 0 ts.
Proof. exact (fun ts ess H => alts_balanced last_nonempty ts ess (proj1 H)). Qed.
Print Assumptions C123_conjunction_partial.
Print Assumptions C123_within_partial.
Print Assumptions C123_language_partial.
Print Assumptions C123_one_reading.
Print Assumptions C123_balanced.

Definition ex_plugins : list plugin := load_plugins [file_plugin].
Definition ex_parse := parse_test unit (fun _ => Err ReError) (fun _ => Err ValueError) false CaseSmart ex_plugins (fun _ => Ok tt)
  (fun _ _ => Err KeyErr).
Definition ex_args (tests : list str) depth : pargs :=
  PArgs tests [] [] depth true false false None ($"auto") false None None None [$"path"] None None false.
Definition ex_entry (depth size : Z) (a : str * str) : option value :=
  if str_eqb (snd a) ($"depth") then Some (VInt depth) else if str_eqb (snd a) ($"size") then Some (VInt size) else None.
Definition ex_match (tests : list str) (depth size : Z) : res bool :=
  matcher ex_parse (fun _ => 0) (run_entry (fun _ _ => false) ($"n") false (ex_entry depth size)) tests.
Definition ex_at (tests : list str) (depth size : Z) : res bool :=
  ex_match (a_tests (process_arguments (ex_args tests (Some [(0, Some 1)])))) depth size.
(** [$ ff -d 1 size=3 '}}' or '{{' size=4] accepts what [$ ff size=3 '}}' or
    '{{' size=4] rejects and matches below the depth; so does a leading OR;
    and AND alone is rejected only with --depth. *)
Theorem C123_refuted :
  (exists ts e, ex_match ts 5 4 = Err e /\ ex_at ts 5 4 = Ok true /\ ~ in_ranges [(0, Some 1)] 5) /\
  (exists ts e, ex_match ts 1 4 = Err e /\ ex_at ts 1 4 = Ok true /\ Balanced 0 ts) /\
  (exists ts e, ex_match ts 1 4 = Ok true /\ ex_at ts 1 4 = Err e /\ in_ranges [(0, Some 1)] 1).
Proof.
  split; [|split].
  - exists [$"size=3"; $"}}"; $"or"; $"{{"; $"size=4"]. eexists. split; [vm_compute; reflexivity|].
    split; [vm_compute; reflexivity|]. intros (r & [<-|[]] & H). cbn in H. now destruct H as [_ H].
  - exists [$"or"; $"size=3"]. eexists. split; [vm_compute; reflexivity|]. split; [vm_compute; reflexivity|].
    repeat (apply Balanced_other; [now intros [H|H]|now intros [H|H]|]). constructor.
  - exists [$"and"]. eexists. split; [vm_compute; reflexivity|]. split; [vm_compute; reflexivity|].
    exists (0, Some 1). split; [now left|]. vm_compute. split; intros K; discriminate K.
Qed.
Print Assumptions C123_refuted.

(** An expression with an empty alternative in its brackets *)
Example C123_example :
  let a := ex_args [$"("; $"or"; $"size=3"; $")"; $"NOT"; $"size=5"] (Some [(1, Some 2); (5, Some 5)]) in
  resolves ex_plugins (fun _ => Ok tt) ($"depth") ($"file", $"depth") TNumber /\
  (Balanced 0 (a_tests a) /\ ~ Forall is_AND (a_tests a)) /\
  ex_match (a_tests a) 2 4 = Ok true /\ ex_match (a_tests (process_arguments a)) 2 4 = Ok true /\
  ex_match (a_tests a) 3 4 = Ok true /\ ex_match (a_tests (process_arguments a)) 3 4 = Ok false /\
  ex_match (a_tests a) 5 5 = Ok false /\ ex_match (a_tests (process_arguments a)) 5 5 = Ok false /\
  (exists ess, Accepted (a_tests a) ess).
Proof.
  split; [repeat split; vm_compute; reflexivity|]. split; [split|].
  - apply Balanced_open; [now left|]. do 2 (apply Balanced_other; [now intros [H|H]|now intros [H|H]|]).
    apply Balanced_close; [now left|]. do 2 (apply Balanced_other; [now intros [H|H]|now intros [H|H]|]). constructor.
  - intros H. apply Forall_inv in H. exact (open_not_AND _ (or_introl eq_refl) H).
  - repeat (split; [vm_compute; reflexivity|]).
    eapply (matcher_rejects ex_parse (fun _ => 0) (run_entry (fun _ _ => false) ($"n") false (ex_entry 2 4)) _ true).
    vm_compute; reflexivity.
Qed.
