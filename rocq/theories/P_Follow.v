(** Property C128: the tree that a search sees, with and without -L. *)
From Coq Require Import List NArith ZArith Bool Lia.
From Verif Require Import Py GrammarSpec PathSpec TypeSpec WalkModel WalkSpec WalkRuns EntryModel TypeModel RegistryModel TestModel ArgumentsModel
  SearchModel SearchSpec SearchRuns LawProofs FollowModel FollowSpec FollowProofs FollowRuns.
Import ListNotations.
Local Open Scope nat_scope.

(** Going down ends, also if links lead back. *)
Theorem C128_ends : forall fs limit root used0 follow, sane fs -> exists fuel l, view fs limit root used0 follow fuel [] = Some l.
Proof. exact (fun fs limit root used0 follow Sa => ends fs limit root used0 Sa follow). Qed.
Print Assumptions C128_ends.
(** The tree has exactly the files to which names lead through directories that
    can be listed and searched, with what stat (-L) or lstat says of them. *)
Theorem C128_tree : forall fs limit root used0 follow fuel l names st, sane fs -> is_dir (fs root) ->
  view fs limit root used0 follow fuel [] = Some l -> names <> [] ->
  (exists f, Place l names f /\ f_status f = st) <->
  (exists used j, Reach fs limit root used0 follow used j names /\ st = status_of (fs j)).
Proof. exact (fun fs limit root used0 follow fuel l names st Sa D V N => seen fs limit root used0 Sa follow fuel l D V names st N). Qed.
Print Assumptions C128_tree.
(** Without -L no directory is entered twice. *)
Theorem C128_once : forall fs limit root used0 i names u names' u', sane fs -> one_place fs root -> is_dir (fs i) ->
  Reach fs limit root used0 false u i names -> Reach fs limit root used0 false u' i names' -> names = names'.
Proof. exact (fun fs limit root used0 i names u names' u' Sa Op D => once fs limit root used0 i Sa Op D names u names' u'). Qed.
Print Assumptions C128_once.
(** There is a warning for each error but those for missing files and
    permissions. *)
Theorem C128_warnings : forall fs limit root used0 follow names e,
  In e (snd (scan_directory fs limit root used0 follow names)) <->
  e <> ENOENT /\ e <> EACCES /\
  (scandir fs limit root used0 names = Failed e \/
   exists l n, scandir fs limit root used0 names = Got l /\ In n l /\ stat fs limit root used0 follow (names ++ [n]) = Failed e).
Proof. exact scan_warnings. Qed.
Print Assumptions C128_warnings.

(** So a search reports exactly the files to which names lead and which match,
    where neither they nor a directory on the way are excluded. *)
Section Search.
  Variable R : Type.
  Variable rcompile : str -> res R.
  Variable rsearch : R -> str -> bool.
  Variable parse_time : str -> res Z.
  Variable debug : bool.
  Variable case : case_mode.
  Variable registered : list plugin.
  Variable init_plugin : str -> res unit.
  Variable reference_value : str * str -> str -> res value.
  Variable score : test R -> Z.
  Variable other : entry -> str -> option value.
  Variable plugin_value : entry -> str * str -> option value.
  Variable cwd : str.
  Variable device : str -> Z.
  Variable fs : nat -> object.
  Variable limit : nat.
  Variable follow : bool.
  Variable place_of : str -> nat * nat.
  Variable listing : str -> list file.
  Variable rendered : entry -> bool.
  Variable m : mode.
  Notation excluded a := (search_excluded R rcompile rsearch parse_time debug case registered init_plugin reference_value score other
    plugin_value (process_arguments a)).
  Notation matched a := (search_matched R rcompile rsearch parse_time debug case registered init_plugin reference_value score other
    plugin_value (process_arguments a)).
  (** l is what a search with the arguments a has found when it has ended
      normally (as in C122). *)
  Definition Finds (a : pargs) (l : list entry) : Prop :=
    exists jobs halt timeout roots ls s, 0 < jobs /\ search_roots cwd device listing (process_arguments a) = Ok roots /\
      WalkModel.run entry (excluded a) (matched a) rendered m jobs halt true true timeout (initial entry jobs roots) ls s /\
      main_ s = MPassed /\ l = results m s.
  Theorem C128_found_partial : sane fs -> forall a ess,
    (forall d, In d (a_directories a) -> let p := start_path cwd (absolute_paths a) d in
       p <> [] /\ is_dir (fs (fst (place_of p))) /\
       exists fuel, view fs limit (fst (place_of p)) (snd (place_of p)) follow fuel [] = Some (listing p)) ->
    forall l, honest registered init_plugin other plugin_value ->
    sensible_args R rcompile parse_time debug case registered init_plugin reference_value a ess -> Finds a l ->
    forall e, In e l <->
      Reported_in R rcompile rsearch parse_time debug case registered init_plugin reference_value other plugin_value cwd device
        fs limit follow place_of a ess e /\ processable m rendered e.
  Proof. exact (found_in R rcompile rsearch parse_time debug case registered init_plugin reference_value score other plugin_value
    cwd device fs limit follow place_of listing rendered m). Qed.
End Search.
Print Assumptions C128_found_partial.

(** With -L a link that leads nowhere is not seen, not even as a broken link,
    although its directory can be listed and searched. *)
Theorem C128_broken_refuted : exists fs st kids n i, sane fs /\ fs 0 = ODir st true true kids /\ In (n, i) kids /\
  forall limit used j, ~ Reach fs limit 0 0 true used j [n].
Proof.
  exact (ex_intro _ broken (ex_intro _ dir_st (ex_intro _ _ (ex_intro _ ($"l") (ex_intro _ 1
    (conj broken_sane (conj eq_refl (conj (or_introl eq_refl) broken_lost)))))))).
Qed.
Print Assumptions C128_broken_refuted.
(** With -L one file can be seen 2 ^ 40 times in a directory with three
    entries. *)
Theorem C128_once_refuted : exists fs st kids i n, sane fs /\ fs 0 = ODir st true true kids /\ length kids = 3 /\
  forall limit, exists ways, length ways = 2 ^ limit /\ NoDup ways /\
    forall names, In names ways -> Reach fs limit 0 0 true limit i (names ++ [n]).
Proof.
  exact (ex_intro _ loops (ex_intro _ dir_st (ex_intro _ _ (ex_intro _ 3 (ex_intro _ ($"f")
    (conj loops_sane (conj eq_refl (conj eq_refl loops_many)))))))).
Qed.
Print Assumptions C128_once_refuted.

(** A directory with a directory d, a link up to itself and a directory x that
    must not be listed.  If a path may have one link, -L goes through up once and
    warns the second time; without -L the link is a file. *)
Definition ex_small (i : nat) : object :=
  match i with
  | 0 => ODir dir_st true true [($"d", 1); ($"up", 2); ($"x", 4)]
  | 1 => ODir dir_st true true [($"f", 3)]
  | 2 => OLink link_st (inr (1, 0))
  | 4 => ODir dir_st false true [($"f", 3)]
  | _ => OFile file_st
  end.
Definition ex_d : file := File ($"d") dir_st [File ($"f") file_st []].
Definition ex_x : file := File ($"x") dir_st [].
Definition ex_followed : list file := [ex_d; File ($"up") dir_st [ex_d; ex_x]; ex_x].
Definition ex_everything : pargs :=
  PArgs [] [$"src"] [] None false false false None ($"auto") false None None None [$"path"] None None false.
Example C128_example : sane ex_small /\ one_place ex_small 0 /\ is_dir (ex_small 0) /\
  view ex_small 1 0 0 true 5 [] = Some ex_followed /\
  view ex_small 1 0 0 false 5 [] = Some [ex_d; File ($"up") link_st []; ex_x] /\
  snd (scan_directory ex_small 1 0 0 true [$"up"]) = [ELOOP] /\
  Reach ex_small 1 0 0 true 1 3 [$"up"; $"d"; $"f"] /\
  honest ex_registered ex_init ex_other ex_plugin /\
  sensible_args str ex_compile ex_time false CaseSmart ex_registered ex_init ex_reference ex_everything [[]] /\
  exists l, Finds str ex_compile ex_re ex_time false CaseSmart ex_registered ex_init ex_reference ex_score ex_other ex_plugin
    ($"/home") ex_device (fun _ => ex_followed) every Console ex_everything l.
Proof.
  assert (Sa : sane ex_small).
  { constructor.
    - intros [|[|[|[|[|i]]]]]; (split; [intros H; first [destruct H; fail|vm_compute; reflexivity]|intros H; first [exact I|vm_compute in H; discriminate H]]).
    - intros [|[|[|[|[|i]]]]] st r x kids E; try discriminate E; injection E as <- <- <- <-;
        (split; [cbn; repeat (apply NoDup_cons; [cbn; intuition discriminate|]); apply NoDup_nil
                |repeat (apply Forall_cons; [split; [discriminate|cbn; intuition discriminate]|]); apply Forall_nil]).
    - intros [|[|[|[|[|i]]]]] st k j E; try discriminate E; injection E as <- <- <-; constructor.
    - intros [|[|[|[|[|i]]]]] st k j st' l E; try discriminate E; injection E as <- <- <-; discriminate.
    - exists (fun i => match i with 0 => 1 | _ => 0 end), 1. split; [intros [|i]; constructor; constructor|].
      intros [|[|[|[|[|i]]]]] st r x kids n j E H D; try discriminate E; injection E as <- <- <- <-; cbn in H.
      + destruct H as [H|[H|[H|[]]]]; injection H as <- <-; try destruct D; constructor.
      + destruct H as [H|[]]; injection H as <- <-; destruct D.
      + destruct H as [H|[]]; injection H as <- <-; destruct D. }
  assert (So : sensible_args str ex_compile ex_time false CaseSmart ex_registered ex_init ex_reference ex_everything [[]]).
  { split; [split; [repeat constructor|now left]|]. split; [intros t []|]. split; [constructor|]. split; [now left|]. split; [constructor|discriminate]. }
  split; [exact Sa|]. split; [|split; [exact I|]].
  { split.
    - intros [|[|[|[|[|i]]]]] st r x kids n E H; try discriminate E; injection E as <- <- <- <-; cbn in H; intuition discriminate.
    - intros [|[|[|[|[|i]]]]] st r x kids n [|[|[|[|[|i']]]]] st' r' x' kids' n' j E H E' H' D; try discriminate E; try discriminate E';
        injection E as <- <- <- <-; injection E' as <- <- <- <-; cbn in H, H';
        repeat match type of H with _ \/ _ => destruct H as [H|H] | False => destruct H end;
        repeat match type of H' with _ \/ _ => destruct H' as [H'|H'] | False => destruct H' end;
        apply pair_equal_spec in H as [<- <-]; apply pair_equal_spec in H' as [<- K]; try discriminate K; try (now destruct D); split; reflexivity. }
  split; [vm_compute; reflexivity|]. split; [vm_compute; reflexivity|]. split; [vm_compute; reflexivity|]. split; [|split; [exact ex_honest|split; [exact So|]]].
  - apply (reach_step ex_small 1 0 0 true 1 1 [$"up"; $"d"] dir_st [($"f", 3)] ($"f") 3 1 3); [|reflexivity|now left|constructor; intros ? ? E; discriminate E].
    apply (reach_step ex_small 1 0 0 true 1 0 [$"up"] dir_st [($"d", 1); ($"up", 2); ($"x", 4)] ($"d") 1 1 1); [|reflexivity|now left|constructor; intros ? ? E; discriminate E].
    apply (reach_step ex_small 1 0 0 true 0 0 [] dir_st [($"d", 1); ($"up", 2); ($"x", 4)] ($"up") 2 (0 + 1) 0); [constructor|reflexivity|right; now left|].
    apply (behind_link ex_small 1 true 0 2 link_st 1 0); [reflexivity|reflexivity|constructor].
  - apply (finds_exists str ex_compile ex_re ex_time false CaseSmart ex_registered ex_init ex_reference ex_score ex_other ex_plugin
      ($"/home") ex_device (fun _ => ex_followed) every Console ex_everything [[]] ex_honest So).
    intros d [<-|[]]. split; [discriminate|]. apply (view_valid ex_small 1 0 0 Sa true 5 []). vm_compute. reflexivity.
Qed.
