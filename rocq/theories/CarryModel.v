(** Model of how a search hands the lists of ignore files down the tree
    (libff/walk.py:139-169, 210; libff/main.py:152-180) and of the plugin
    "ignore" in a search. *)
From Coq Require Import List NArith ZArith Bool.
From Verif Require Import Py Re OsPath WalkModel PathModel GlobModel IgnoreModel EntryModel TypeModel RegistryModel TestModel ArgumentsModel SearchModel.
Import ListNotations.

(** An Entry object with its attribute ignore_paths (libff/entry.py:125) *)
Definition carrier := (entry * list str)%type.

Section Carry.
  (** --ignore-files *)
  Variable ignore_files : list str.

  (** libff/walk.py:139-169: the list that the entries of one directory share,
      given the list of the directory itself, its path relative to the start
      directory and its contents.  Entries made before an ignore file is found
      have the same list object. *)
  Definition dir_ignores (sd : start) (relpath : str) (l : list file) (paths : list str) : list str :=
    paths ++ map (fun f => join (absroot sd) (join relpath (f_name f))) (filter (fun f => str_in (f_name f) ignore_files) l).

  (** libff/walk.py:147-149, 210: as [scan_file], with the lists; [paths] is the
      list of the directory that f is in. *)
  Fixpoint carry_file (sd : start) (relpath : str) (paths : list str) (f : file) : res (node carrier) :=
    match f with
    | File name st kids =>
        do e <- mk_entry sd (join relpath name) st;
        if str_eqb (type_of_mode (st_mode st)) ($"directory") then
          do l <- (fix scan (l : list file) : res (list (node carrier)) :=
                     match l with
                     | [] => Ok []
                     | k :: l =>
                         do x <- carry_file sd (join relpath name) (dir_ignores sd (join relpath name) kids paths) k;
                         do r <- scan l; Ok (x :: r)
                     end) kids;
          Ok (Node (e, paths) true l)
        else Ok (Node (e, paths) false [])
    end.
  Fixpoint carry_files (sd : start) (relpath : str) (paths : list str) (l : list file) : res (list (node carrier)) :=
    match l with
    | [] => Ok []
    | k :: l => do x <- carry_file sd relpath paths k; do r <- carry_files sd relpath paths l; Ok (x :: r)
    end.

  Variable cwd : str.
  Variable device : str -> Z.
  Variable listing : str -> list file.
  (** os.path.exists *)
  Variable exists_ : str -> bool.
  (** --no-parent-ignore *)
  Variable no_parent : bool.
  (** As [start_node]; what stands for the start directory is not used. *)
  Definition carry_start (sd : start) (kids : list (node carrier)) : node carrier :=
    Node (Entry sd [] (Status 0 0 0) [] [] [] [] false, []) true kids.
  (** libff/main.py:152-180 *)
  Fixpoint carry_starts (ignore absolute : bool) (dirs : list str) : res (list (node carrier)) :=
    match dirs with
    | [] => Ok []
    | d :: dirs =>
        let sd := start_dir cwd device absolute d in
        let l := listing (start_path cwd absolute d) in
        let paths := start_ignores exists_ cwd ignore_files ignore no_parent absolute d in
        do k <- carry_files sd [] (dir_ignores sd [] l paths) l;
        do r <- carry_starts ignore absolute dirs;
        Ok (carry_start sd k :: r)
    end.
  Definition carry_roots (a : pargs) : res (list (node carrier)) :=
    carry_starts (a_ignore a) (a_absolute_path a) (a_directories a).
End Carry.

(** libff/builtin/ignore.py:28-36 *)
Definition ignore_plugin : plugin := Plugin ($"ignore") [($"ignored", TBoolean); ($"path", TString)].

Section Ignored.
  (** The lines of a file, None: OSError *)
  Variable read : str -> option (list str).
  (** libff/builtin/ignore.py:75-86.  A broken pattern (re.error), for which
      there is no value here, ends the process. *)
  Definition ignore_value (c : carrier) (n : str) : option value :=
    let e := fst c in
    match is_ignored read (snd c) (e_abspath e) (e_name e) (str_eqb (type_of_mode (st_mode (e_status e))) ($"directory")) with
    | COk (b, p) =>
        if str_eqb n ($"ignored") then Some (VBool b)
        else if str_eqb n ($"path") then Some (VStr (match p with Some p => p | None => [] end))
        else None
    | _ => None
    end.
  (** The attributes of the other plugins *)
  Variable plugin_value : entry -> str * str -> option value.
  Definition carried_value (c : carrier) (a : str * str) : option value :=
    if str_eqb (fst a) ($"ignore") then ignore_value c (snd a) else plugin_value (fst c) a.

  Variable R : Type.
  Variable rcompile : str -> res R.
  Variable rsearch : R -> str -> bool.
  Variable parse_time : str -> res Z.
  Variable debug : bool.
  Variable case : case_mode.
  Variable registered : list plugin.
  Variable init_plugin : str -> res unit.
  Variable reference_value : str * str -> str -> res value.
  Variable score : test R -> Z.
  Variable other : entry -> str -> option value.
  (** libff/main.py:134-142 *)
  Definition carry_excluded (a : pargs) (c : carrier) : res bool :=
    search_excluded R rcompile rsearch parse_time debug case registered init_plugin reference_value score other
      (fun e => carried_value (e, snd c)) a (fst c).
  Definition carry_matched (a : pargs) (c : carrier) : res bool :=
    search_matched R rcompile rsearch parse_time debug case registered init_plugin reference_value score other
      (fun e => carried_value (e, snd c)) a (fst c).
End Ignored.
