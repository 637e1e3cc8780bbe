(** Model of reference files: libff/entry.py:95-117 and the value that a test
    with a reference gets from one, libff/parser.py:252-253. *)
From Coq Require Import List NArith ZArith Bool.
From Verif Require Import Py OsPath PathModel EntryModel TypeModel SearchModel.
Import ListNotations.

Section Reference.
  (** The current directory, and os.stat as --follow-symlinks has it; None is
      an OSError. *)
  Variable cwd : str.
  Variable stat : str -> option status.

  (** libff/entry.py:77-81 *)
  Definition new_start (root : str) : res start :=
    match stat root with
    | Some st => Ok (Start root (abspath cwd root) (st_dev st))
    | None => Err OSErr
    end.
  (** libff/entry.py:104-110: the first search directory that is a prefix of
      the absolute path, and the rest. *)
  Fixpoint find_directory (abs : str) (directories : list str) : option (str * str) :=
    match directories with
    | [] => None
    | d :: directories =>
        let dirname := abspath cwd d ++ [SLASH] in
        if starts_with dirname abs then Some (d, skipn (length dirname) abs) else find_directory abs directories
    end.
  (** libff/entry.py:95-117; the link of a symbolic link is read there as well,
      see [mk_entry]. *)
  Definition as_reference (directories : list str) (path : str) : res entry :=
    let '(directory, relpath) :=
      match find_directory (abspath cwd path) directories with
      | Some x => x
      | None => split path
      end in
    do sd <- new_start directory;
    match stat path with
    | Some st => mk_entry sd relpath st
    | None => Err OSErr
    end.

  Variable other : entry -> str -> option value.
  Variable plugin_value : entry -> str * str -> option value.
  Variable directories : list str.
  (** libff/parser.py:252-253, libff/registry.py:275-284; a missing attribute is
      a KeyError. *)
  Definition reference_value (attribute : str * str) (path : str) : res value :=
    do e <- as_reference directories path;
    match attribute_value other plugin_value e attribute with
    | Some v => Ok v
    | None => Err KeyErr
    end.
End Reference.
