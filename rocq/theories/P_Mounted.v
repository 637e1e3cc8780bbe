(** Property C129: --one-file-system stays within the file system of the start
    directory. *)
From Coq Require Import List NArith ZArith Bool Lia.
From Verif Require Import Py GrammarSpec PathSpec TypeSpec WalkModel WalkSpec WalkRuns EntryModel TypeModel RegistryModel TestModel ArgumentsModel
  SearchModel SearchSpec SearchRuns LawProofs FollowModel FollowSpec FollowProofs FollowRuns MountedModel MountedSpec MountedProofs MountedRuns.
Import ListNotations.
Local Open Scope nat_scope.

Section Search.
  Variable R : Type.
  Variable rcompile : str -> res R.
  Variable rsearch : R -> str -> bool.
  Variable parse_time : str -> res Z.
  Variable debug : bool.
  Variable case : case_mode.
  Variable registered : list plugin.
  Variable init_plugin : str -> res unit.
  Variable reference_value : str * str -> str -> res value.
  Variable score : test R -> Z.
  Variable other : entry -> str -> option value.
  Variable plugin_value : entry -> str * str -> option value.
  Variable cwd : str.
  Variable device : str -> Z.
  Variable fs : nat -> object.
  Variable limit : nat.
  Variable follow : bool.
  Variable named place_of : str -> nat * nat.
  Variable listing : str -> list file.
  Variable rendered : entry -> bool.
  Variable m : mode.
  Notation excluded a := (search_excluded R rcompile rsearch parse_time debug case registered init_plugin reference_value score other
    plugin_value (process_arguments a)).
  Notation matched a := (search_matched R rcompile rsearch parse_time debug case registered init_plugin reference_value score other
    plugin_value (process_arguments a)).
  (** l is what a search with the arguments a has found when it has ended
      normally (as in C122). *)
  Definition Finds (a : pargs) (l : list entry) : Prop :=
    exists jobs halt timeout roots ls s, 0 < jobs /\ search_roots cwd device listing (process_arguments a) = Ok roots /\
      WalkModel.run entry (excluded a) (matched a) rendered m jobs halt true true timeout (initial entry jobs roots) ls s /\
      main_ s = MPassed /\ l = results m s.
  (** What the start directories of a search are: where their paths lead, which
      device they are taken to be on, and what is found there. *)
  Definition Starts (a : pargs) : Prop :=
    forall d, In d (a_directories a) -> let p := start_path cwd (absolute_paths a) d in
      p <> [] /\ start_place fs limit (named p) = Got (place_of p) /\ start_device fs limit follow (named p) = Got (device p) /\
      is_dir (fs (fst (place_of p))) /\
      exists fuel, view fs limit (fst (place_of p)) (snd (place_of p)) follow fuel [] = Some (listing p).
  (** If no start directory is a link, or links are followed (-L). *)
  Theorem C129_within_partial : sane fs -> forall a ess, a_one_file_system a = true -> Starts a ->
    (forall d, In d (a_directories a) -> follow = true \/ ~ is_link (fs (fst (named (start_path cwd (absolute_paths a) d))))) ->
    forall l, honest registered init_plugin other plugin_value ->
    sensible_args R rcompile parse_time debug case registered init_plugin reference_value a ess -> Finds a l ->
    forall e, In e l <->
      Reported_within R rcompile rsearch parse_time debug case registered init_plugin reference_value other plugin_value cwd device
        fs limit follow place_of a ess e /\ processable m rendered e.
  Proof.
    exact (fun Sa a ess O St Nl => found_within R rcompile rsearch parse_time debug case registered init_plugin reference_value score other
      plugin_value cwd device fs limit follow named place_of listing rendered m Sa a ess O
      (fun d D => match St d D with conj A (conj B (conj C E)) => conj A (conj B (conj C (conj (Nl d D) E))) end)).
  Qed.
End Search.
Print Assumptions C129_within_partial.

(** Without -L a start directory that is a link to another file system is
    searched, but nothing in it is reported. *)
Theorem C129_link_refuted : exists device fs limit named place_of listing a ess, sane fs /\ a_one_file_system a = true /\
  Starts ($"/home") device fs limit false named place_of listing a /\
  honest ex_registered ex_init ex_other ex_plugin /\
  sensible_args str ex_compile ex_time false CaseSmart ex_registered ex_init ex_reference a ess /\
  (exists e, Reported_within str ex_compile ex_re ex_time false CaseSmart ex_registered ex_init ex_reference ex_other ex_plugin ($"/home") device
    fs limit false place_of a ess e) /\
  (exists l, Finds str ex_compile ex_re ex_time false CaseSmart ex_registered ex_init ex_reference ex_score ex_other ex_plugin
    ($"/home") device listing every Console a l) /\
  forall l, Finds str ex_compile ex_re ex_time false CaseSmart ex_registered ex_init ex_reference ex_score ex_other ex_plugin
    ($"/home") device listing every Console a l -> l = [].
Proof.
  exists (fun _ => 1%Z), elsewhere, 40, (fun _ => (0, 0)), (fun _ => (1, 1)), (fun _ => elsewhere_tree), elsewhere_args, [[]].
  split; [exact elsewhere_sane|]. split; [reflexivity|]. split.
  { intros d [<-|[]]. repeat split; try discriminate. exists 5. exact elsewhere_view. }
  split; [exact ex_honest|]. split; [exact elsewhere_sensible|]. split; [exact elsewhere_within|]. split; [exact elsewhere_exists|exact elsewhere_nothing].
Qed.
Print Assumptions C129_link_refuted.

(** src is on device 1 and has a file f, a directory m of device 2 and a link n to
    the latter; with -L and --one-file-system only f is found. *)
Definition ex_mounted (i : nat) : object :=
  match i with
  | 0 => ODir dir_st true true [($"f", 1); ($"m", 2); ($"n", 4)]
  | 2 => ODir (Status 16877 4096 2) true true [($"g", 3)]
  | 3 => OFile (Status 33188 10 2)
  | 4 => OLink link_st (inr (1, 2))
  | _ => OFile file_st
  end.
Definition ex_mounted_tree : list file :=
  let g := [File ($"g") (Status 33188 10 2) []] in
  [File ($"f") file_st []; File ($"m") (Status 16877 4096 2) g; File ($"n") (Status 16877 4096 2) g].
Example C129_example : sane ex_mounted /\ Starts ($"/home") ex_device ex_mounted 40 true (fun _ => (0, 0)) (fun _ => (0, 0)) (fun _ => ex_mounted_tree) elsewhere_args /\
  Within ex_mounted 40 0 0 true [$"f"] /\ ~ Within ex_mounted 40 0 0 true [$"m"; $"g"] /\ ~ Within ex_mounted 40 0 0 true [$"n"] /\
  honest ex_registered ex_init ex_other ex_plugin /\
  sensible_args str ex_compile ex_time false CaseSmart ex_registered ex_init ex_reference elsewhere_args [[]] /\
  exists l, Finds str ex_compile ex_re ex_time false CaseSmart ex_registered ex_init ex_reference ex_score ex_other ex_plugin
    ($"/home") ex_device (fun _ => ex_mounted_tree) every Console elsewhere_args l.
Proof.
  assert (Sa : sane ex_mounted).
  { constructor.
    - intros [|[|[|[|[|i]]]]]; (split; [intros H; first [destruct H; fail|vm_compute; reflexivity]|intros H; first [exact I|vm_compute in H; discriminate H]]).
    - intros [|[|[|[|[|i]]]]] st r x kids E; try discriminate E; injection E as <- <- <- <-;
        (split; [cbn; repeat (apply NoDup_cons; [cbn; intuition discriminate|]); apply NoDup_nil
                |repeat (apply Forall_cons; [split; [discriminate|cbn; intuition discriminate]|]); apply Forall_nil]).
    - intros [|[|[|[|[|i]]]]] st k j E; try discriminate E; injection E as <- <- <-; constructor.
    - intros [|[|[|[|[|i]]]]] st k j st' l E; try discriminate E; injection E as <- <- <-; discriminate.
    - exists (fun i => match i with 0 => 1 | _ => 0 end), 1. split; [intros [|i]; constructor; constructor|].
      intros [|[|[|[|[|i]]]]] st r x kids n j E H D; try discriminate E; injection E as <- <- <- <-; cbn in H.
      + destruct H as [H|[H|[H|[]]]]; injection H as <- <-; try destruct D; constructor.
      + destruct H as [H|[]]; injection H as <- <-; destruct D. }
  assert (V : view ex_mounted 40 0 0 true 5 [] = Some ex_mounted_tree) by (vm_compute; reflexivity).
  assert (Rm : Reach ex_mounted 40 0 0 true 0 2 [$"m"]).
  { apply (reach_step ex_mounted 40 0 0 true 0 0 [] dir_st [($"f", 1); ($"m", 2); ($"n", 4)] ($"m") 2 0 2); [constructor|reflexivity|right; now left|constructor; intros ? ? E; discriminate E]. }
  assert (Rn : Reach ex_mounted 40 0 0 true 1 2 [$"n"]).
  { apply (reach_step ex_mounted 40 0 0 true 0 0 [] dir_st [($"f", 1); ($"m", 2); ($"n", 4)] ($"n") 4 (0 + 1) 2); [constructor|reflexivity|do 2 right; now left|].
    apply (behind_link ex_mounted 40 true 0 4 link_st 1 2); [reflexivity|reflexivity|repeat constructor]. }
  split; [exact Sa|]. split.
  { intros d [<-|[]]. repeat split; try discriminate. exists 5. exact V. }
  split.
  { intros k l used j E Hr. destruct k as [|n k]; [now rewrite (reach_nil _ _ _ _ _ _ _ Hr)|]. injection E as <- E. destruct k; [|discriminate E].
    assert (Nf : [$"f"] <> []) by discriminate.
    destruct (proj2 (seen ex_mounted 40 0 0 Sa true 5 _ I V [$"f"] (status_of (ex_mounted j)) Nf) (ex_intro _ used (ex_intro _ j (conj Hr eq_refl)))) as (f & P & Q).
    rewrite <- Q. remember [$"f"] as nm eqn:En. destruct P as [f H|nm d f Pd _ H].
    - destruct H as [<-|[<-|[<-|[]]]]; try discriminate En. reflexivity.
    - apply (app_inj_tail nm []) in En as [-> _]. inversion Pd as [|nm' ? ? ? ? ? En]. now destruct nm'. }
  split; [intros W; pose proof (W [$"m"] [$"g"] 0 2 eq_refl Rm) as H; discriminate H|].
  split; [intros W; pose proof (W [$"n"] [] 1 2 eq_refl Rn) as H; discriminate H|].
  split; [exact ex_honest|]. split; [exact elsewhere_sensible|].
  apply (finds_exists str ex_compile ex_re ex_time false CaseSmart ex_registered ex_init ex_reference ex_score ex_other ex_plugin
      ($"/home") ex_device (fun _ => ex_mounted_tree) every Console elsewhere_args [[]] ex_honest elsewhere_sensible).
  intros d [<-|[]]. split; [discriminate|]. exact (view_valid ex_mounted 40 0 0 Sa true 5 [] _ V).
Qed.
