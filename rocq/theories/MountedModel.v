(** Model of what a search takes for the file system of a start directory. *)
From Coq Require Import List ZArith.
From Verif Require Import Py EntryModel SearchModel FollowModel.
Import ListNotations.
Local Open Scope nat_scope.

Section Device.
  Variable fs : nat -> object.
  Variable limit : nat.
  Variable follow : bool.
  (** The file that the path of a start directory names, which may be a link, and
      the number of links before it *)
  Variable named : nat * nat.
  (** libff/entry.py:77-81: StartDirectory.device, by stat(2) or lstat(2) *)
  Definition start_device : sys Z :=
    then_sys (behind fs limit follow (snd named) (fst named)) (fun p => Got (st_dev (status_of (fs (snd p))))).
  (** libff/walk.py:143: the directory that os.scandir lists *)
  Definition start_place : sys (nat * nat) :=
    then_sys (behind fs limit true (snd named) (fst named)) (fun p => Got (snd p, fst p)).
End Device.
