(** Properties C103 and C104: empty files and directories, mount points. *)
From Coq Require Import List NArith ZArith Bool.
From Verif Require Import Py OsPath PathSpec EntrySpec PathModel EntryModel TypeModel RegistryModel TestModel ArgumentsModel SearchModel SearchSpec SearchRuns
  LinkModel AttributeModel AttributeProofs DeviceSpec DeviceProofs DeviceRuns.
Import ListNotations.
Local Open Scope Z_scope.

Section Devices.
  (** Whatever the system answers *)
  Variable inode_of : entry -> inode.
  Variable scandir : str -> option (list str).
  Variable readlink : str -> option str.
  Variable realpath : str -> str.
  Variable exists_ : str -> bool.
  Variable lstat_dev : str -> option Z.
  Variable users groups : Z -> option str.
  Variable mounts : list EntryModel.mount.
  Variable memo : list (Z * str) * list (Z * str).
  Notation file_attribute := (file_attribute inode_of scandir readlink realpath exists_ lstat_dev users groups mounts memo).
  Notation real_other := (real_other inode_of scandir readlink realpath exists_ lstat_dev users groups mounts memo).

  (** C103: the attribute empty *)
  Theorem C103_empty : forall e, exists b, file_attribute e ($"empty") = Ok (Some (VBool b)) /\ (b = true <-> Empty scandir e).
  Proof. exact (empty_value inode_of scandir readlink realpath exists_ lstat_dev users groups mounts memo). Qed.

  (** C26 for the attributes of entries: they are those of a nearest mount point,
      and pseudofs tells whether its type is one of those that are not on a
      device.  Missing, as in C26_nearest_partial: mount points themselves, the
      choice among stacked mounts. *)
  Theorem C26_attributes_partial : forall e t, e_abspath e = SLASH :: t ->
    (forall m, In m mounts -> normal (m_path m) /\ e_abspath e <> m_path m) ->
    (exists m, In m mounts /\ contains (m_path m) (e_abspath e)) ->
    exists m b, nearest mounts (e_abspath e) m /\
      file_attribute e ($"mpath") = Ok (Some (VStr (rstrip_p (N.eqb SLASH) (m_path m) ++ [SLASH]))) /\
      file_attribute e ($"devname") = Ok (Some (VStr (snd (fst m)))) /\ file_attribute e ($"fstype") = Ok (Some (VStr (snd m))) /\
      file_attribute e ($"pseudofs") = Ok (Some (VBool b)) /\ (b = true <-> pseudo_type (snd m)).
  Proof. exact (nearest_values inode_of scandir readlink realpath exists_ lstat_dev users groups mounts memo). Qed.

  Variable cwd : str.
  Variable device : str -> Z.
  Variable listing : str -> list file.
  Notation upwards := (upwards realpath lstat_dev cwd device listing).
  Notation contents := (contents cwd listing).
  Notation entry_at := (entry_at cwd device).
  Notation start_device a d := (device (start_path cwd (absolute_paths a) d)).

  (** C104: mount is true of the directories on another device than the
      directory they are in.  Full statement: of all directories on which
      something is mounted; missing: something of the same device, for which it is
      false (C104_refuted). *)
  Theorem C104_mount_partial : forall a d names f e p, upwards a d -> Place (contents a d) names f -> entry_at a d names f e ->
    ParentDevice (contents a d) (start_device a d) names p ->
    exists b, file_attribute e ($"mount") = Ok (Some (VBool b)) /\ (b = true <-> directory (f_status f) /\ st_dev (f_status f) <> p).
  Proof. exact (mount_place inode_of scandir readlink realpath exists_ lstat_dev users groups mounts memo cwd device listing). Qed.
  (** On the way to a directory of another device there is one. *)
  Theorem C104_crossing : forall a d names f, upwards a d -> valid (contents a d) -> start_path cwd (absolute_paths a) d <> [] ->
    Place (contents a d) names f -> directory (f_status f) -> st_dev (f_status f) <> start_device a d ->
    exists k m g e, names = k ++ m /\ k <> [] /\ Place (contents a d) k g /\ directory (f_status g) /\ entry_at a d k g e /\
      file_attribute e ($"mount") = Ok (Some (VBool true)).
  Proof. exact (crossing inode_of scandir readlink realpath exists_ lstat_dev users groups mounts memo cwd device listing). Qed.

  (** In tests *)
  Variable R : Type.
  Variable rcompile : str -> res R.
  Variable rsearch : R -> str -> bool.
  Variable parse_time : str -> res Z.
  Variable debug : bool.
  Variable case : case_mode.
  Variable registered : list plugin.
  Variable init_plugin : str -> res unit.
  Variable reference_value : str * str -> str -> res value.
  Variable plugin_value : entry -> str * str -> option value.
  Notation Holds e s := (Holds R rcompile rsearch parse_time debug case registered init_plugin reference_value
    (attribute_value real_other plugin_value e) s).
  Notation Reported := (Reported R rcompile rsearch parse_time debug case registered init_plugin reference_value real_other plugin_value cwd device listing).
  Theorem C103_tests : find_plugin registered ($"file") = Some file_plugin -> init_plugin ($"file") = Ok tt ->
    forall e, (Holds e ($"empty=yes") <-> Empty scandir e) /\ (Holds e ($"empty=no") <-> ~ Empty scandir e).
  Proof.
    intros H1 H2.
    exact (empty_holds inode_of scandir readlink realpath exists_ lstat_dev users groups mounts memo cwd device listing
      R rcompile rsearch parse_time debug case registered init_plugin reference_value plugin_value H1 H2).
  Qed.
  (** With -e mount=yes a search reports only directories of the device of the
      start directory, as with --one-file-system. *)
  Theorem C104_search : find_plugin registered ($"file") = Some file_plugin -> init_plugin ($"file") = Ok tt ->
    forall a ess e, In ($"mount=yes") (a_exclude a) ->
    (forall d, In d (a_directories a) -> upwards a d /\ valid (contents a d) /\ start_path cwd (absolute_paths a) d <> []) ->
    Reported a ess e -> directory (e_status e) -> st_dev (e_status e) = start_dev (e_start e).
  Proof.
    intros H1 H2.
    exact (mount_excluded inode_of scandir readlink realpath exists_ lstat_dev users groups mounts memo cwd device listing
      R rcompile rsearch parse_time debug case registered init_plugin reference_value plugin_value H1 H2).
  Qed.
End Devices.
Print Assumptions C103_empty.
Print Assumptions C103_tests.
Print Assumptions C104_mount_partial.
Print Assumptions C104_crossing.
Print Assumptions C104_search.

(** A bind mount: /proc/mounts has a line for the directory e, and it is the
    mount point of the file x in it, but mount is false. *)
Theorem C104_refuted : exists scandir realpath lstat_dev mounts e x,
  directory (e_status e) /\ In (e_abspath e, $"/dev/sda1", $"ext4") mounts /\ e_dir x = e_path e /\
  let value := file_attribute (fun _ => Inode 7 1 0 0 (0, 0) (0, 0) (0, 0)) scandir (fun _ => None) realpath (fun _ => true) lstat_dev
    (fun _ => None) (fun _ => None) mounts ([], []) in
  value x ($"mpath") = Ok (Some (VStr (e_abspath e ++ $"/"))) /\ value e ($"mount") = Ok (Some (VBool false)).
Proof.
  exists dx_scandir, (fun _ => $"/home/src"), dx_lstat, [($"/", $"/dev/sda1", $"ext4"); ($"/home/src/bind", $"/dev/sda1", $"ext4")],
    (dx_entry ($"bind") (Status 16877 4096 1)),
    (Entry (Start ($"src") ($"/home/src") 1) ($"bind/x") (Status 33188 1 1) ($"src/bind/x") ($"/home/src/bind/x") ($"src/bind") ($"x") false).
  split; [reflexivity|]. split; [right; now left|]. split; [reflexivity|]. vm_compute. split; reflexivity.
Qed.
Print Assumptions C104_refuted.

(** The directory of DeviceRuns: src/mnt is a mount point *)
Example C103_example :
  dx_value (dx_entry ($"mnt/old") (Status 16877 4096 2)) ($"empty") = Ok (Some (VBool true)) /\
  dx_value (dx_entry ($"mnt") (Status 16877 4096 2)) ($"empty") = Ok (Some (VBool false)) /\
  dx_value (dx_entry ($"locked") (Status 16384 0 1)) ($"empty") = Ok (Some (VBool false)) /\
  dx_value (dx_entry ($"mnt/zero") (Status 33188 0 2)) ($"empty") = Ok (Some (VBool true)) /\
  dx_value (dx_entry ($"mnt/one") (Status 33188 1 2)) ($"empty") = Ok (Some (VBool false)) /\
  dx_value (dx_entry ($"mnt/link") (Status 41471 0 2)) ($"empty") = Ok (Some (VBool false)) /\
  find_plugin ex_registered ($"file") = Some file_plugin.
Proof. vm_compute. repeat split. Qed.
Example C104_example : In ($"src") (a_directories dx_args) /\ In ($"mount=yes") (a_exclude dx_args) /\
  upwards dx_realpath dx_lstat ($"/home") ex_device dx_listing dx_args ($"src") /\
  valid (contents ($"/home") dx_listing dx_args ($"src")) /\ start_path ($"/home") (absolute_paths dx_args) ($"src") <> [] /\
  Place (contents ($"/home") dx_listing dx_args ($"src")) [$"mnt"; $"old"] dx_empty /\ st_dev (f_status dx_empty) <> ex_device ($"src") /\
  dx_value (dx_entry ($"mnt") (Status 16877 4096 2)) ($"mount") = Ok (Some (VBool true)) /\
  dx_value (dx_entry ($"mnt/old") (Status 16877 4096 2)) ($"mount") = Ok (Some (VBool false)).
Proof.
  split; [now left|]. split; [now left|]. split; [exact dx_upwards|]. split; [exact dx_valid|]. split; [discriminate|].
  split; [exact (place_below [dx_mnt] [$"mnt"] dx_mnt dx_empty (place_here [dx_mnt] dx_mnt (or_introl eq_refl)) eq_refl (or_introl eq_refl))|].
  split; [discriminate|]. vm_compute. split; reflexivity.
Qed.
Print Assumptions C26_attributes_partial.
Example C26_attributes_example : forall sd inode_of scandir readlink realpath exists_ lstat_dev users groups memo,
  let mounts := [($"/", $"sda", $"ext4"); ($"/tmp", $"none", $"tmpfs")] in
  let e := Entry sd [] (Status 0 0 0) ($"/tmp/x") ($"/tmp/x") ($"/tmp") ($"x") false in
  (forall m, In m mounts -> normal (m_path m) /\ e_abspath e <> m_path m) /\ (exists m, In m mounts /\ contains (m_path m) (e_abspath e)) /\
  AttributeProofs.file_attribute inode_of scandir readlink realpath exists_ lstat_dev users groups mounts memo e ($"pseudofs") = Ok (Some (VBool true)).
Proof.
  intros. split; [|split; [|reflexivity]].
  - intros m [<-|[<-|[]]]; (split; [|discriminate]); [constructor|]. apply (normal_abs [$"tmp"]); [easy|]. constructor; [|constructor]. split; [discriminate|]. intros K. vm_compute in K. repeat (destruct K as [K|K]; [discriminate|]). exact K.
  - eexists. split; [now left|now left].
Qed.
