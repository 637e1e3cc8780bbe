(** Specification: which files there are below a directory, with and without
    following symbolic links. *)
From Coq Require Import List NArith ZArith Bool.
From Verif Require Import Py GrammarSpec PathSpec TypeSpec EntryModel TypeModel RegistryModel TestModel ArgumentsModel ArgumentsSpec SearchModel SearchSpec FollowModel.
Import ListNotations.
Local Open Scope nat_scope.

Section Follow.
  Variable fs : nat -> object.
  Variable limit root used0 : nat.
  Variable follow : bool.

  (** [Behind used i used' j]: the name of the file i stands for the file j. *)
  Inductive Behind (used i : nat) : nat -> nat -> Prop :=
  | behind_itself : (forall st leads, fs i = OLink st leads -> follow = false) -> Behind used i used i
  | behind_link st k j : fs i = OLink st (inr (k, j)) -> follow = true -> used + k <= limit -> Behind used i (used + k) j.
  (** [Reach used i names]: the names lead to the file i, passing so many
      links; all directories on the way can be listed and searched. *)
  Inductive Reach : nat -> nat -> list str -> Prop :=
  | reach_root : Reach used0 root []
  | reach_step used d names st kids n i used' j : Reach used d names -> fs d = ODir st true true kids -> In (n, i) kids ->
      Behind used i used' j -> Reach used' j (names ++ [n]).
End Follow.

(** The file system is a real one: the mode says what a file is, links count
    themselves, names are different and have no slash, directories are in each
    other up to some depth, links lead to files of the file system. *)
Definition is_dir (o : object) : Prop := match o with ODir _ _ _ _ => True | _ => False end.
Record sane (fs : nat -> object) : Prop := {
  mode_dir : forall i, is_dir (fs i) <-> directory (status_of (fs i));
  names_ok : forall i st r x kids, fs i = ODir st r x kids -> NoDup (map fst kids) /\ Forall (fun k => name_ok (fst k)) kids;
  links_count : forall i st k j, fs i = OLink st (inr (k, j)) -> 1 <= k;
  links_end : forall i st k j st' l, fs i = OLink st (inr (k, j)) -> fs j <> OLink st' l;
  nested : exists rank top, (forall i, rank i <= top) /\
    forall i st r x kids n j, fs i = ODir st r x kids -> In (n, j) kids -> is_dir (fs j) -> rank j < rank i }.
(** Directories have one place each. *)
Definition one_place (fs : nat -> object) (root : nat) : Prop :=
  (forall i st r x kids n, fs i = ODir st r x kids -> ~ In (n, root) kids) /\
  forall i st r x kids n i' st' r' x' kids' n' j, fs i = ODir st r x kids -> In (n, j) kids ->
    fs i' = ODir st' r' x' kids' -> In (n', j) kids' -> is_dir (fs j) -> i = i' /\ n = n'.

(** ** The search *)
Section Search.
  Variable R : Type.
  Variable rcompile : str -> res R.
  Variable rsearch : R -> str -> bool.
  Variable parse_time : str -> res Z.
  Variable debug : bool.
  Variable case : case_mode.
  Variable registered : list plugin.
  Variable init_plugin : str -> res unit.
  Variable reference_value : str * str -> str -> res value.
  Variable other : entry -> str -> option value.
  Variable plugin_value : entry -> str * str -> option value.
  Variable cwd : str.
  Variable device : str -> Z.
  Variable fs : nat -> object.
  Variable limit : nat.
  Variable follow : bool.
  (** Where a start directory is, and how many links are in its path *)
  Variable place_of : str -> nat * nat.
  Notation Holds e s := (Holds R rcompile rsearch parse_time debug case registered init_plugin reference_value (attribute_value other plugin_value e) s).
  Notation Excluded := (Excluded R rcompile rsearch parse_time debug case registered init_plugin reference_value other plugin_value).

  (** The names lead from the start directory d to a file of which e is the entry. *)
  Definition Leads_to (a : pargs) (d : str) (names : list str) (e : entry) : Prop :=
    exists used i, Reach fs limit (fst (place_of (start_path cwd (absolute_paths a) d))) (snd (place_of (start_path cwd (absolute_paths a) d)))
        follow used i names /\
      mk_entry (start_dir cwd device (absolute_paths a) d) (walk_relpath names) (status_of (fs i)) = Ok e.
  (** e is to be reported, as in C76, but by the names that lead to it. *)
  Definition Reported_in (a : pargs) (ess : list (list bexp)) (e : entry) : Prop :=
    exists d names, In d (a_directories a) /\ names <> [] /\ Leads_to a d names e /\
      (forall k l e', names = k ++ l -> k <> [] -> Leads_to a d k e' -> ~ Excluded a k e') /\
      (ranges a <> [] -> in_ranges (ranges a) (Z.of_nat (length names) - 1)%Z) /\
      Satisfied (fun s => Holds e s) ess.
End Search.
