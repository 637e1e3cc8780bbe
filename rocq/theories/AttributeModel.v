(** Model of those attributes of files that depend on more than the path, the
    type, the size and the device: libff/entry.py:221-326, 340-384. *)
From Coq Require Import List NArith ZArith Bool.
From Verif Require Import Py FloatLib PathModel EntryModel TypeModel CountModel LinkModel.
Import ListNotations.
Local Open Scope Z_scope.

(** A point of time as the file system keeps it: seconds since the epoch and
    nanoseconds from 0 to 999999999. *)
Definition timespec := (Z * Z)%type.
(** The other fields of os.stat_result that are used *)
Record inode := Inode { st_ino : Z; st_nlink : Z; st_uid : Z; st_gid : Z; st_mtim : timespec; st_ctim : timespec; st_atim : timespec }.

(** int(status.st_mtime) (libff/entry.py:227-243).  The float is
    (double)sec + 1e-9 * nsec (CPython, Modules/posixmodule.c, fill_time); int()
    cuts off the fraction towards zero.  Addition is rounded as one operation. *)
Definition whole_seconds (t : timespec) : res Z :=
  match fmul (rn 1 1000000000) (rn (snd t) 1) with
  | FInf => Err OverflowErr
  | FFin a b =>
      let sum := fst t * b + a in
      if 0 <=? sum then fint (rn sum b) else do z <- fint (rn (- sum) b); Ok (- z)
  end.

(** libff/entry.py:269-295: user and group names are kept in a dictionary of
    the class. *)
Definition name_of (database : Z -> option str) (memo : list (Z * str)) (id : Z) : str * list (Z * str) :=
  match dict_get Z.eqb id memo with
  | Some n => (n, memo)
  | None => let n := match database id with Some n => n | None => [] end in (n, dict_set Z.eqb id n memo)
  end.
(** A sequence of queries *)
Fixpoint names_of (database : Z -> option str) (memo : list (Z * str)) (ids : list Z) : list str :=
  match ids with
  | [] => []
  | id :: ids => let (n, memo) := name_of database memo id in n :: names_of database memo ids
  end.

(** libff/entry.py:31-33 *)
Definition pseudo_fs : list str :=
  [$"binfmt_misc"; $"bpf"; $"cgroup2"; $"configfs"; $"debugfs"; $"devpts"; $"devtmpfs"; $"efivarfs"; $"hugetlbfs"; $"mqueue"; $"proc"; $"pstore";
   $"securityfs"; $"sysfs"; $"tmpfs"; $"tracefs"].

Section Attributes.
  (** What the operating system answers: os.stat, os.scandir (None: OSError),
      os.readlink (likewise), os.path.realpath, os.path.exists, the device of
      os.lstat (None: OSError), the databases of users and groups, and
      /proc/mounts. *)
  Variable inode_of : entry -> inode.
  Variable scandir : str -> option (list str).
  Variable readlink : str -> option str.
  Variable realpath : str -> str.
  Variable exists_ : str -> bool.
  Variable lstat_dev : str -> option Z.
  Variable users groups : Z -> option str.
  Variable mounts : list EntryModel.mount.

  (** libff/entry.py:304-326 *)
  Definition e_empty (e : entry) : bool :=
    if S_ISDIR (st_mode (e_status e)) then
      match scandir (e_path e) with Some [] => true | _ => false end
    else if S_ISREG (st_mode (e_status e)) then size_of (e_status e) =? 0
    else false.
  (** libff/entry.py:340-358 *)
  Definition e_mount (e : entry) : bool :=
    if negb (str_eqb (type_of_mode (st_mode (e_status e))) ($"directory")) then false
    else
      let parent := realpath (join (e_path e) ($"..")) in
      if str_eqb parent (e_path e) then true
      else match lstat_dev parent with
           | None => false
           | Some d => negb (st_dev (e_status e) =? d)
           end.
  (** libff/entry.py:360-384; [mpath], [devname], [fstype] *)
  Definition e_mpath (e : entry) : EntryModel.mount := mount_get (mountpoints mounts) (e_abspath e).

  (** libff/entry.py:433-446 for the attributes that SearchModel.file_value
      leaves open; None: KeyError.  [memo] are the dictionaries for names of users
      and groups. *)
  Definition file_other (memo : list (Z * str) * list (Z * str)) (e : entry) (n : str) : res (option value) :=
    let i := inode_of e in
    if str_eqb n ($"inode") then Ok (Some (VInt (st_ino i)))
    else if str_eqb n ($"mtime") || str_eqb n ($"time") then do z <- whole_seconds (st_mtim i); Ok (Some (VInt z))
    else if str_eqb n ($"ctime") then do z <- whole_seconds (st_ctim i); Ok (Some (VInt z))
    else if str_eqb n ($"atime") then do z <- whole_seconds (st_atim i); Ok (Some (VInt z))
    else if str_eqb n ($"links") then Ok (Some (VInt (st_nlink i)))
    else if str_eqb n ($"uid") then Ok (Some (VInt (st_uid i)))
    else if str_eqb n ($"gid") then Ok (Some (VInt (st_gid i)))
    else if str_eqb n ($"user") then Ok (Some (VStr (fst (name_of users (fst memo) (st_uid i)))))
    else if str_eqb n ($"group") then Ok (Some (VStr (fst (name_of groups (snd memo) (st_gid i)))))
    else if str_eqb n ($"empty") then Ok (Some (VBool (e_empty e)))
    else if str_eqb n ($"link") then do l <- link_attributes readlink realpath exists_ e; Ok (option_map VStr (l_link l))
    else if str_eqb n ($"target") then do l <- link_attributes readlink realpath exists_ e; Ok (option_map VStr (l_target l))
    else if str_eqb n ($"broken") then do l <- link_attributes readlink realpath exists_ e; Ok (Some (VBool (l_broken l)))
    else if str_eqb n ($"mount") then Ok (Some (VBool (e_mount e)))
    else if str_eqb n ($"mpath") then Ok (Some (VStr (fst (fst (e_mpath e)))))
    else if str_eqb n ($"devname") then Ok (Some (VStr (snd (fst (e_mpath e)))))
    else if str_eqb n ($"fstype") then Ok (Some (VStr (snd (e_mpath e))))
    else if str_eqb n ($"pseudofs") then Ok (Some (VBool (str_in (snd (e_mpath e)) pseudo_fs)))
    else Ok None.
End Attributes.
