(** A start directory that is a link to a directory of another file system. *)
From Coq Require Import List NArith ZArith Bool Lia.
From Verif Require Import Py GrammarSpec PathSpec TypeSpec WalkModel WalkSpec WalkRuns EntryModel EntryProofs TypeModel RegistryModel TestModel ArgumentsModel ArgumentsSpec
  SearchModel SearchSpec SearchTreeProofs SearchEndProofs SearchRuns LawProofs LocalSpec FollowModel FollowSpec FollowProofs FollowRuns MountedModel MountedSpec MountedProofs.
Import ListNotations.
Local Open Scope nat_scope.

Definition elsewhere (i : nat) : object :=
  match i with
  | 0 => OLink link_st (inr (1, 1))
  | 1 => ODir (Status 16877 4096 2) true true [($"f", 2)]
  | _ => OFile (Status 33188 10 2)
  end.
Definition elsewhere_args : pargs :=
  PArgs [] [$"src"] [] None false true false None ($"auto") false None None None [$"path"] None None false.
Definition elsewhere_tree : list file := [File ($"f") (Status 33188 10 2) []].
Lemma elsewhere_sane : sane elsewhere.
Proof.
  constructor.
  - intros [|[|i]]; (split; [intros H; first [destruct H; fail|vm_compute; reflexivity]|intros H; first [exact I|vm_compute in H; discriminate H]]).
  - intros [|[|i]] st r x kids E; try discriminate E. injection E as <- <- <- <-. split.
    + cbn. repeat (apply NoDup_cons; [cbn; intuition discriminate|]). apply NoDup_nil.
    + repeat (apply Forall_cons; [split; [discriminate|cbn; intuition discriminate]|]). apply Forall_nil.
  - intros [|[|i]] st k j E; try discriminate E; injection E as <- <- <-; constructor.
  - intros [|[|i]] st k j st' l E; try discriminate E; injection E as <- <- <-; discriminate.
  - exists (fun _ => 0), 0. split; [constructor|]. intros [|[|i]] st r x kids n j E H D; try discriminate E.
    injection E as <- <- <- <-. cbn in H. destruct H as [H|[]]; injection H as <- <-; destruct D.
Qed.
Lemma elsewhere_dev used j names : Reach elsewhere 40 1 1 false used j names -> j = 1 \/ j = 2.
Proof.
  induction 1 as [|used d names st kids n i used' j' Hr IH E Hin B]; [now left|]. right.
  destruct IH as [-> | ->]; [|discriminate E]. injection E as <- <-. destruct Hin as [H|[]]. injection H as <- <-.
  destruct B as [_|st' k j'' E' F]; [reflexivity|discriminate F].
Qed.

Lemma elsewhere_sensible : sensible_args str ex_compile ex_time false CaseSmart ex_registered ex_init ex_reference elsewhere_args [[]].
Proof. split; [split; [repeat constructor|now left]|]. split; [intros t []|]. split; [constructor|]. split; [now left|]. split; [constructor|discriminate]. Qed.
Lemma elsewhere_view : view elsewhere 40 1 1 false 5 [] = Some elsewhere_tree.
Proof. vm_compute. reflexivity. Qed.
Notation other_dev := (fun _ : str => 1%Z).
Notation there := (fun _ : str => (1, 1)).
Lemma elsewhere_dirs d : In d (a_directories elsewhere_args) -> let p := start_path ($"/home") (absolute_paths elsewhere_args) d in
  p <> [] /\ is_dir (elsewhere (fst (there p))) /\
  exists fuel, view elsewhere 40 (fst (there p)) (snd (there p)) false fuel [] = Some elsewhere_tree.
Proof. intros [<-|[]]. split; [discriminate|]. split; [exact I|]. exists 5. exact elsewhere_view. Qed.
Lemma elsewhere_exists : exists l, Finds str ex_compile ex_re ex_time false CaseSmart ex_registered ex_init ex_reference ex_score ex_other ex_plugin ($"/home") other_dev (fun _ => elsewhere_tree) every Console elsewhere_args l.
Proof.
  apply (finds_exists str ex_compile ex_re ex_time false CaseSmart ex_registered ex_init ex_reference ex_score ex_other ex_plugin
      ($"/home") other_dev (fun _ => elsewhere_tree) every Console elsewhere_args [[]] ex_honest elsewhere_sensible).
  intros d [<-|[]]. split; [discriminate|]. exact (view_valid elsewhere 40 1 1 elsewhere_sane false 5 [] _ elsewhere_view).
Qed.
Lemma elsewhere_nothing l : Finds str ex_compile ex_re ex_time false CaseSmart ex_registered ex_init ex_reference ex_score ex_other ex_plugin ($"/home") other_dev (fun _ => elsewhere_tree) every Console elsewhere_args l -> l = [].
Proof.
  intros F. destruct l as [|e l]; [reflexivity|]. exfalso.
  destruct (proj1 (found_in str ex_compile ex_re ex_time false CaseSmart ex_registered ex_init ex_reference ex_score ex_other ex_plugin
    ($"/home") other_dev elsewhere 40 false there (fun _ => elsewhere_tree) every Console elsewhere_sane elsewhere_args [[]] elsewhere_dirs
    (e :: l) ex_honest elsewhere_sensible F e) (or_introl eq_refl)) as [(d & names & D & N & L & X & _) _].
  apply (X names [] e (eq_sym (app_nil_r names)) N L). right; right; left. split; [reflexivity|].
  destruct L as (used & j & Hr & Ee). destruct (mk_entry_parts _ _ _ _ Ee) as [-> ->].
  destruct (elsewhere_dev used j names Hr) as [-> | ->]; cbn; discriminate.
Qed.
Lemma elsewhere_within : exists e, Reported_within str ex_compile ex_re ex_time false CaseSmart ex_registered ex_init ex_reference ex_other ex_plugin ($"/home") other_dev elsewhere 40 false there elsewhere_args [[]] e.
Proof.
  assert (Hr : Reach elsewhere 40 1 1 false 1 2 [$"f"]).
  { apply (reach_step elsewhere 40 1 1 false 1 1 [] (Status 16877 4096 2) [($"f", 2)] ($"f") 2 1 2); [constructor|reflexivity|now left|constructor; intros ? ? E; discriminate E]. }
  assert (Ee : exists e, mk_entry (start_dir ($"/home") other_dev (absolute_paths elsewhere_args) ($"src")) (walk_relpath [$"f"]) (Status 33188 10 2) = Ok e).
  { eexists. vm_compute. reflexivity. }
  destruct Ee as (e & Ee). exists e, ($"src"), [$"f"]. split; [now left|]. split; [discriminate|]. split; [exists 1, 2; split; assumption|].
  split.
  { intros k l e' _ _ _ [(s & [] & _)|[[Q _]|[[Q _]|[[Q _]|[Q _]]]]]; try discriminate Q. now apply Q. }
  split; [intros Q; now destruct Q|]. split; [left; exact I|]. cbv zeta. cbn [fst snd].
  intros k l used j _ Hk. destruct (elsewhere_dev used j k Hk) as [-> | ->]; reflexivity.
Qed.
