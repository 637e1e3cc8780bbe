(** Model of a whole search: how libff/main.py:134-180 puts the parts
    together, and how libff/walk.py:135-180 makes entries of a directory tree. *)
From Coq Require Import List NArith ZArith Bool.
From Verif Require Import Py OsPath ParserModel WalkModel PathModel EntryModel TypeModel RegistryModel TestModel ArgumentsModel.
Import ListNotations.

(** What a directory contains, in the order of os.scandir: names, what stat
    shows, and what these contain in turn.  The tree is what the search sees,
    see [node].  Entries that cannot be accessed are left out; FollowModel says
    which these are. *)
Inductive file := File (f_name : str) (f_status : status) (f_kids : list file).
Definition f_name (f : file) : str := let (n, _, _) := f in n.
Definition f_status (f : file) : status := let (_, s, _) := f in s.
Definition f_kids (f : file) : list file := let (_, _, l) := f in l.

(** libff/walk.py:142-149 and 203-210: the entries below a directory given by
    its path relative to the start directory.  Ignore files are left out, see
    IgnoreModel. *)
Fixpoint scan_file (sd : start) (relpath : str) (f : file) : res (node entry) :=
  match f with
  | File name st kids =>
      do e <- mk_entry sd (join relpath name) st;
      if str_eqb (type_of_mode (st_mode st)) ($"directory") then
        do l <- (fix scan (l : list file) : res (list (node entry)) :=
                   match l with
                   | [] => Ok []
                   | k :: l => do x <- scan_file sd (join relpath name) k; do r <- scan l; Ok (x :: r)
                   end) kids;
        Ok (Node e true l)
      else Ok (Node e false [])
  end.
Fixpoint scan_files (sd : start) (relpath : str) (l : list file) : res (list (node entry)) :=
  match l with
  | [] => Ok []
  | k :: l => do x <- scan_file sd relpath k; do r <- scan_files sd relpath l; Ok (x :: r)
  end.

(** libff/registry.py:275-284 for the plugin "file": attributes of the Entry
    object.  Those that EntryModel does not have (times, owners, links, ...)
    are a parameter. *)
Definition file_value (other : entry -> str -> option value) (e : entry) (n : str) : option value :=
  if str_eqb n ($"path") then Some (VStr (e_path e))
  else if str_eqb n ($"root") then Some (VStr (root (e_start e)))
  else if str_eqb n ($"relpath") then Some (VStr (e_relpath e))
  else if str_eqb n ($"dir") then Some (VStr (e_dir e))
  else if str_eqb n ($"name") then Some (VStr (e_name e))
  else if str_eqb n ($"ext") then Some (VStr (e_ext e))
  else if str_eqb n ($"pathx") then Some (VStr (e_pathx e))
  else if str_eqb n ($"namex") then Some (VStr (e_namex e))
  else if str_eqb n ($"mode") then Some (VInt (st_mode (e_status e)))
  else if str_eqb n ($"type") then Some (VStr (type_of_mode (st_mode (e_status e))))
  else if str_eqb n ($"device") then Some (VInt (st_dev (e_status e)))
  else if str_eqb n ($"samedev") then Some (VBool (e_samedev e))
  else if str_eqb n ($"depth") then Some (VInt (Z.of_nat (e_depth e)))
  else if str_eqb n ($"exec") then Some (VBool (executable_of (st_mode (e_status e))))
  else if str_eqb n ($"size") then Some (VInt (size_of (e_status e)))
  else if str_eqb n ($"perm") then Some (VInt (perm_of (st_mode (e_status e))))
  else if str_eqb n ($"hide") then Some (VBool (e_hide e))
  else if str_eqb n ($"hidden") then Some (VBool (e_hidden e))
  else other e n.

Section Search.
  Variable R : Type.
  Variable rcompile : str -> res R.
  Variable rsearch : R -> str -> bool.
  Variable parse_time : str -> res Z.
  Variable debug : bool.
  Variable case : case_mode.
  Variable registered : list plugin.
  Variable init_plugin : str -> res unit.
  Variable reference_value : str * str -> str -> res value.
  Variable score : test R -> Z.
  Variable other : entry -> str -> option value.
  (** The attributes of the other plugins; None: KeyError *)
  Variable plugin_value : entry -> str * str -> option value.
  Notation parse := (parse_test R rcompile parse_time debug case registered init_plugin reference_value).

  (** libff/registry.py:275-284 *)
  Definition attribute_value (e : entry) (a : str * str) : option value :=
    if str_eqb (fst a) ($"file") then file_value other e (snd a) else plugin_value e a.
  Definition entry_test (e : entry) : test R -> outcome :=
    run_entry rsearch (e_name e) (str_eqb (type_of_mode (st_mode (e_status e))) ($"directory")) (attribute_value e).
  (** libff/main.py:134-142.  The parsing, which is done once there, does not
      depend on the entry. *)
  Definition search_excluded (a : pargs) (e : entry) : res bool := excluder parse score (entry_test e) (a_exclude a).
  Definition search_matched (a : pargs) (e : entry) : res bool := matcher parse score (entry_test e) (a_tests a).

  Variable cwd : str.
  (** The device of a start directory and its contents *)
  Variable device : str -> Z.
  Variable listing : str -> list file.
  (** libff/main.py:153-156, 180; StartDirectory: libff/entry.py:72-81 *)
  Definition start_path (absolute : bool) (d : str) : str := if absolute then abspath cwd d else d.
  Definition start_dir (absolute : bool) (d : str) : start :=
    let path := start_path absolute d in Start path (abspath cwd path) (device path).
  (** The node of a start directory.  It is not tested, so that it needs no
      entry; what stands for it is not used. *)
  Definition start_node (sd : start) (kids : list (node entry)) : node entry :=
    Node (Entry sd [] (Status 0 0 0) [] [] [] [] false) true kids.
  (** libff/main.py:152-180 *)
  Fixpoint scan_starts (absolute : bool) (dirs : list str) : res (list (node entry)) :=
    match dirs with
    | [] => Ok []
    | d :: dirs =>
        do l <- scan_files (start_dir absolute d) [] (listing (start_path absolute d));
        do r <- scan_starts absolute dirs;
        Ok (start_node (start_dir absolute d) l :: r)
    end.
  Definition search_roots (a : pargs) : res (list (node entry)) := scan_starts (a_absolute_path a) (a_directories a).
End Search.
