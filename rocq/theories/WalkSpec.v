(** What a search should find.  The model is imported for its data types. *)
From Coq Require Import List ZArith Bool.
From Verif Require Import Py WalkModel.
Import ListNotations.

Section Spec.
  Variable A : Type.
  Variable excluded matched : A -> res bool.
  (** [n] is below the directory [d]; neither it nor a directory between them
      is excluded. *)
  Inductive Below (d : node A) : node A -> Prop :=
  | below_kid n : In n (kids d) -> excluded (entry n) = Ok false -> Below d n
  | below_deep m n : Below d m -> is_dir m = true -> In n (kids m) -> excluded (entry n) = Ok false -> Below d n.
  (** [a] is to be reported. *)
  Definition Match (roots : list (node A)) (a : A) : Prop :=
    exists d n, In d roots /\ Below d n /\ matched (entry n) = Ok true /\ entry n = a.
  (** The tests of an entry do not raise an exception. *)
  Definition fine (n : node A) : Prop :=
    exists b, excluded (entry n) = Ok b /\ (b = false -> exists c, matched (entry n) = Ok c).
  (** Like [Below] and [Match], but in the directories on the way no test raises
      an exception, whatever happens elsewhere. *)
  Inductive Surely (d : node A) : node A -> Prop :=
  | surely_kid n : Forall fine (kids d) -> In n (kids d) -> excluded (entry n) = Ok false -> Surely d n
  | surely_deep m n : Surely d m -> is_dir m = true -> Forall fine (kids m) -> In n (kids m) -> excluded (entry n) = Ok false ->
      Surely d n.
  Definition SureMatch (roots : list (node A)) (a : A) : Prop :=
    exists d n, In d roots /\ Surely d n /\ matched (entry n) = Ok true /\ entry n = a.
  (** No test raises an exception. *)
  Definition calm : Prop := forall a, (exists b, excluded a = Ok b) /\ (exists b, matched a = Ok b).
End Spec.
(** All entries in a tree *)
Fixpoint below_all {A} (n : node A) : list A :=
  match n with
  | Node _ d l =>
      if d then (fix go l := match l with [] => [] | k :: l => entry k :: below_all k ++ go l end) l else []
  end.
Definition tree_all {A} (roots : list (node A)) : list A :=
  flat_map (fun d => flat_map (fun k => entry k :: below_all k) (kids d)) roots.
(** What has been done with the results: they have been printed (or, if they
    are collected, have arrived in the main process), or their commands have
    been run. *)
Definition results {A} (m : mode) (s : state A) : list A :=
  match m with Exec => map fst (ran s) | _ => printed s end.
(** Results that cannot be rendered are not processed; when they are collected
    they are not rendered yet. *)
Definition processable {A} (m : mode) (rendered : A -> bool) (a : A) : Prop :=
  match m with Collect => True | _ => rendered a = true end.
(** The number of steps that are work, not waiting *)
Definition is_busy (a : label) : bool := match a with LWork | LTake => true | _ => false end.
Definition busy (ls : list label) : nat := length (filter is_busy ls).
(** All processes live and no stop has been requested. *)
Definition healthy {A} (s : state A) : Prop :=
  stopping s = false /\ (main_ s = MGet \/ main_ s = MCheck \/ exists t, main_ s = MWait t) /\
  Forall (fun w => w <> Passed /\ w <> Stopped /\ w <> Failed /\ w <> Killed) (workers s).
Section Scan.
  Variable A : Type.
  Variable excluded matched : A -> res bool.
  Variable rendered : A -> bool.
  Variable the_mode : mode.
  Variable jobs : nat.
  (** What one worker does with the entries of a scan, until it has come back
      to the rest of the directories *)
  Inductive scan : task A -> list (effect A) -> list (node A) -> Prop :=
  | scan_done ds : scan (TDirs ds) [] ds
  | scan_step t split t' e effs ds : (forall ds', t <> TDirs ds') ->
      work A excluded matched rendered the_mode jobs split t = Ok (Some t', e) -> scan t' effs ds -> scan t (e :: effs) ds.
  (** The entries given to other processes, the directories to be searched, the
      results *)
  Definition given (effs : list (effect A)) : list (list (node A)) :=
    flat_map (fun e => match e with EPut (CEntries l) => [l] | _ => [] end) effs.
  Definition handed (effs : list (effect A)) : list (list (node A)) :=
    flat_map (fun e => match e with EPut (CDirs l) => [l] | _ => [] end) effs.
  Definition emitted (effs : list (effect A)) : list (list A) :=
    flat_map (fun e => match e with EPut (CArgs l) => [l] | ESend l => [l] | EPrint a => [[a]] | _ => [] end) effs.
  Definition to_search (n : node A) : bool :=
    match excluded (entry n) with Ok false => is_dir n | _ => false end.
  Definition to_report (n : node A) : bool :=
    match excluded (entry n), matched (entry n) with Ok false, Ok b => b | _, _ => false end.
  Definition usable (a : A) : bool := match the_mode with Collect => true | _ => rendered a end.
End Scan.
(** The worker waits for work, or it has a command to run. *)
Definition may_run {A} (w : worker A) : bool :=
  match w with Getting _ | Run (TArgs (_ :: _)) => true | _ => false end.
