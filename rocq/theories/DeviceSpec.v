(** Specification: empty files and directories, mount points. *)
From Coq Require Import List NArith ZArith Bool.
From Verif Require Import Py OsPath PathModel EntrySpec EntryModel ArgumentsModel SearchModel SearchSpec.
Import ListNotations.
Local Open Scope Z_scope.

Definition regular (st : status) : Prop := format_name ((st_mode st / 4096) mod 16) = $"file".

(** Nothing is in it: a directory that has been listed and had no entries, or
    a regular file of no length. *)
Definition Empty (scandir : str -> option (list str)) (e : entry) : Prop :=
  (directory (e_status e) /\ scandir (e_path e) = Some []) \/ (regular (e_status e) /\ st_size (e_status e) = 0).

(** The types of file systems that are not on a device: those with which the kernel
    shows itself, those in memory, and those for devices and messages *)
Definition pseudo_type (t : str) : Prop :=
  In t [$"proc"; $"sysfs"; $"cgroup2"; $"bpf"; $"binfmt_misc"; $"configfs"; $"debugfs"; $"tracefs"; $"securityfs"; $"efivarfs"; $"pstore"] \/
  In t [$"tmpfs"; $"hugetlbfs"] \/ In t [$"devtmpfs"; $"devpts"; $"mqueue"].

(** [ParentDevice l D names d]: d is the device of the directory in which one
    finds what is at [names], D that of the start directory. *)
Inductive ParentDevice (l : list file) (D : Z) : list str -> Z -> Prop :=
| parent_start n : ParentDevice l D [n] D
| parent_dir names n g : Place l names g -> ParentDevice l D (names ++ [n]) (st_dev (f_status g)).

Section Devices.
  Variable realpath : str -> str.
  Variable lstat_dev : str -> option Z.
  Variable cwd : str.
  Variable device : str -> Z.
  Variable listing : str -> list file.
  (** The system leads from a directory by ".." to the one it is in, and knows
      that one's device; that one has another path. *)
  Definition upwards (a : pargs) (d : str) : Prop :=
    forall names f e p, Place (contents cwd listing a d) names f -> entry_at cwd device a d names f e -> directory (f_status f) ->
      ParentDevice (contents cwd listing a d) (device (start_path cwd (absolute_paths a) d)) names p ->
      lstat_dev (realpath (join (e_path e) ($".."))) = Some p /\ realpath (join (e_path e) ($"..")) <> e_path e.
End Devices.
