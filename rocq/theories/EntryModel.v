(** Model of libff/entry.py (path, type and mount attributes) and of the way
    libff/walk.py builds the relative path of an entry. *)
From Coq Require Import List NArith ZArith Bool.
From Verif Require Import Py SortLib StrOrder PathModel.
Import ListNotations.
Open Scope Z_scope.

(** libff/entry.py:72-81 StartDirectory; [absroot] is os.path.abspath(root),
    taken as an input. *)
Record start := Start { root : str; absroot : str; start_dev : Z }.

(** The fields of os.stat_result that are used here. *)
Record status := Status { st_mode : Z; st_size : Z; st_dev : Z }.

Record entry := Entry {
  e_start : start; e_relpath : str; e_status : status;
  e_path : str; e_abspath : str; e_dir : str; e_name : str; e_hide : bool }.

(** libff/entry.py:119-142 Entry.__init__ without the symbolic link attributes
    (lines 134-140, os.readlink/realpath).  [self.name[0]] raises IndexError on
    an empty name. *)
Definition mk_entry (sd : start) (relpath : str) (st : status) : res entry :=
  let path := if negb (str_eqb (root sd) [DOT]) then join (root sd) relpath else relpath in
  let abspath := join (absroot sd) relpath in
  let '(dir, name) := split path in
  match name with
  | [] => Err IndexErr
  | c :: _ => Ok (Entry sd relpath st path abspath dir name (N.eqb c DOT))
  end.

(** libff/walk.py:147, 210: the relative path of an entry reached from the
    start directory (relpath "") through the directory entries [names]. *)
Definition walk_relpath (names : list str) : str := fold_left join names [].

(** libff/entry.py:175-180 *)
Definition e_ext (e : entry) : str := slice (snd (splitext (e_path e))) (Some 1) None.
(** libff/entry.py:328-332 *)
Definition e_pathx (e : entry) : str := fst (splitext (e_path e)).
(** os.path.basename: posixpath, p[p.rfind("/") + 1:] *)
Definition os_basename (p : str) : str := slice p (Some (rfind SLASH p + 1)) None.
(** libff/entry.py:334-338 *)
Definition e_namex (e : entry) : str := os_basename (e_pathx e).
(** libff/entry.py:200-204: str.count of one character. *)
Definition e_depth (e : entry) : nat := length (filter (N.eqb SLASH) (e_relpath e)).
(** libff/entry.py:297-302 *)
Definition e_hidden (e : entry) : bool :=
  existsb (fun part => starts_with [DOT] part) (split_on SLASH (e_path e)).
(** libff/entry.py:194-198 *)
Definition e_samedev (e : entry) : bool := st_dev (e_status e) =? start_dev (e_start e).

(** stat.S_IFMT(mode) == constant (CPython Modules/_stat.c on Linux;
    S_ISDOOR, S_ISPORT and S_ISWHT are constantly false there). *)
Definition S_IFMT (m : Z) : Z := Z.land m 61440.
Definition S_ISDIR m := S_IFMT m =? 16384.
Definition S_ISREG m := S_IFMT m =? 32768.
Definition S_ISLNK m := S_IFMT m =? 40960.
Definition S_ISSOCK m := S_IFMT m =? 49152.
Definition S_ISFIFO m := S_IFMT m =? 4096.
Definition S_ISCHR m := S_IFMT m =? 8192.
Definition S_ISBLK m := S_IFMT m =? 24576.
Definition S_ISDOOR (_ : Z) := false.
Definition S_ISPORT (_ : Z) := false.
Definition S_ISWHT (_ : Z) := false.

(** libff/entry.py:146-167 *)
Definition type_of_mode (m : Z) : str :=
  if S_ISDIR m then $"directory"
  else if S_ISREG m then $"file"
  else if S_ISLNK m then $"symlink"
  else if S_ISSOCK m then $"socket"
  else if S_ISFIFO m then $"fifo"
  else if S_ISCHR m then $"char"
  else if S_ISBLK m then $"block"
  else if S_ISDOOR m then $"door"
  else if S_ISPORT m then $"port"
  else if S_ISWHT m then $"whiteout"
  else $"other".
(** libff/type.py:290 MODE_ALL = 0o7777 *)
Definition MODE_ALL : Z := 4095.
(** libff/entry.py:212-219 *)
Definition size_of (st : status) : Z := if S_ISREG (st_mode st) then st_size st else 0.
(** libff/entry.py:245-249 *)
Definition perm_of (m : Z) : Z := Z.land m MODE_ALL.
(** libff/entry.py:398-401, 408-411, 423-429 (S_IXUSR 64, S_IXGRP 8, S_IXOTH 1) *)
Definition executable_of (m : Z) : bool :=
  if str_eqb (type_of_mode m) ($"directory") || str_eqb (type_of_mode m) ($"symlink") then false
  else Z.lor (Z.lor (Z.land (perm_of m) 64) (Z.land (perm_of m) 8)) (Z.land (perm_of m) 1) >? 0.

(** Comparison of (mpath, devname, fstype) tuples. *)
Definition mount := (str * str * str)%type.
Definition m_path (m : mount) : str := fst (fst m).
Definition mount_leb (a b : mount) : bool :=
  let '(a1, a2, a3) := a in let '(b1, b2, b3) := b in
  if str_eqb a1 b1 then (if str_eqb a2 b2 then str_leb a3 b3 else str_leb a2 b2)
  else str_leb a1 b1.

(** libff/entry.py:40-51: the lines of /proc/mounts, already divided into
    (mountpoint, device, fstype); the octal escapes of the kernel (\040 for a
    blank) are not decoded by the code either. *)
Definition mountpoints (lines : list mount) : list mount :=
  sort_reverse mount_leb
    (map (fun '(mpath, dev, fs) => (rstrip_p (N.eqb SLASH) mpath ++ [SLASH], dev, fs)) lines).

(** libff/entry.py:54-60 (the lru_cache does not change the result) *)
Fixpoint mount_get (entries : list mount) (path : str) : mount :=
  match entries with
  | [] => ([SLASH], $"root_device", $"rootfs")
  | (mpath, dev, fs) :: t =>
      if str_eqb mpath path || starts_with mpath path then (mpath, dev, fs) else mount_get t path
  end.
