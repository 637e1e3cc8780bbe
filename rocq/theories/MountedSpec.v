(** Specification: the files that are in the file system of the start
    directory, and so are all directories on the way to them. *)
From Coq Require Import List NArith ZArith Bool.
From Verif Require Import Py GrammarSpec PathSpec TypeSpec EntryModel TypeModel RegistryModel TestModel ArgumentsModel ArgumentsSpec
  SearchModel SearchSpec LocalSpec FollowModel FollowSpec.
Import ListNotations.
Local Open Scope nat_scope.

(** [Within fs .. names]: every step of names leads to a file on the device of
    the directory at which they start. *)
Definition Within (fs : nat -> object) (limit root used0 : nat) (follow : bool) (names : list str) : Prop :=
  forall k l used j, names = k ++ l -> Reach fs limit root used0 follow used j k ->
    st_dev (status_of (fs j)) = st_dev (status_of (fs root)).
Definition is_link (o : object) : Prop := match o with OLink _ _ => True | _ => False end.

Section Search.
  Variable R : Type.
  Variable rcompile : str -> res R.
  Variable rsearch : R -> str -> bool.
  Variable parse_time : str -> res Z.
  Variable debug : bool.
  Variable case : case_mode.
  Variable registered : list plugin.
  Variable init_plugin : str -> res unit.
  Variable reference_value : str * str -> str -> res value.
  Variable other : entry -> str -> option value.
  Variable plugin_value : entry -> str * str -> option value.
  Variable cwd : str.
  Variable device : str -> Z.
  Variable fs : nat -> object.
  Variable limit : nat.
  Variable follow : bool.
  Variable place_of : str -> nat * nat.
  Notation Holds e s := (Holds R rcompile rsearch parse_time debug case registered init_plugin reference_value (attribute_value other plugin_value e) s).
  Notation Excluded := (Excluded R rcompile rsearch parse_time debug case registered init_plugin reference_value other plugin_value).
  Notation Leads_to := (Leads_to cwd device fs limit follow place_of).

  (** e would be reported without --one-file-system, and its way is within the
      file system of its start directory. *)
  Definition Reported_within (a : pargs) (ess : list (list bexp)) (e : entry) : Prop :=
    exists d names, In d (a_directories a) /\ names <> [] /\ Leads_to a d names e /\
      (forall k l e', names = k ++ l -> k <> [] -> Leads_to a d k e' ->
         ~ Excluded (set_flags a (a_ignore a) false (a_hide a)) k e') /\
      (ranges a <> [] -> in_ranges (ranges a) (Z.of_nat (length names) - 1)%Z) /\
      Satisfied (fun s => Holds e s) ess /\
      let place := place_of (start_path cwd (absolute_paths a) d) in
      Within fs limit (fst place) (snd place) follow names.
End Search.
