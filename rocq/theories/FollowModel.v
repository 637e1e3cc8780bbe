(** Model of how the tree of a search comes about: libff/walk.py:135-188 on a
    file system with symbolic links, with and without -L (--follow).
    Simplifications: paths are lists of names below a start directory; nothing
    changes meanwhile, so that os.readlink in Entry.__init__ does not fail, and
    reading a directory does not fail half way. *)
From Coq Require Import List NArith ZArith Bool.
From Verif Require Import Py EntryModel SearchModel.
Import ListNotations.
Local Open Scope nat_scope.

(** ** The operating system *)
Inductive errno := ENOENT | EACCES | ELOOP | ENOTDIR | Other_errno (n : Z).
Inductive sys A := Got (x : A) | Failed (e : errno).
Arguments Got {A} x. Arguments Failed {A} e.
Definition then_sys {A B} (r : sys A) (f : A -> sys B) : sys B := match r with Got x => f x | Failed e => Failed e end.
(** Files by their numbers.  A directory has permission bits r and x for the
    user.  A link has its own status; the path in it leads, from where the link
    is, through a number of links including itself to some file, or fails. *)
Inductive object :=
| ODir (st : status) (readable searchable : bool) (kids : list (str * nat))
| OFile (st : status)
| OLink (st : status) (leads : errno + nat * nat).
Definition status_of (o : object) : status := match o with ODir st _ _ _ | OFile st | OLink st _ => st end.

Section System.
  Variable fs : nat -> object.
  (** The number of links that a path may pass, 40 in Linux *)
  Variable limit : nat.
  (** The start directory, and the number of links in its path *)
  Variable root used0 : nat.

  Fixpoint lookup (n : str) (kids : list (str * nat)) : option nat :=
    match kids with
    | [] => None
    | (k, i) :: kids => if str_eqb n k then Some i else lookup n kids
    end.
  Definition behind (follow : bool) (used i : nat) : sys (nat * nat) :=
    match fs i with
    | OLink _ leads =>
        if follow then
          match leads with
          | inl e => Failed e
          | inr (k, j) => if Nat.leb (used + k) limit then Got (used + k, j) else Failed ELOOP
          end
        else Got (used, i)
    | _ => Got (used, i)
    end.
  (** path_resolution(7): links on the way are always followed. *)
  Fixpoint resolve (follow : bool) (used i : nat) (names : list str) : sys (nat * nat) :=
    match names with
    | [] => Got (used, i)
    | n :: rest =>
        match fs i with
        | ODir _ _ searchable kids =>
            if searchable then
              match lookup n kids with
              | None => Failed ENOENT
              | Some j =>
                  then_sys (behind (match rest with [] => follow | _ => true end) used j)
                    (fun p => resolve follow (fst p) (snd p) rest)
              end
            else Failed EACCES
        | _ => Failed ENOTDIR
        end
    end.
  (** stat(2) or lstat(2), and os.scandir *)
  Definition stat (follow : bool) (names : list str) : sys status :=
    then_sys (resolve follow used0 root names) (fun p => Got (status_of (fs (snd p)))).
  Definition scandir (names : list str) : sys (list str) :=
    then_sys (resolve true used0 root names) (fun p =>
      match fs (snd p) with
      | ODir _ readable _ kids => if readable then Got (map fst kids) else Failed EACCES
      | _ => Failed ENOTDIR
      end).

  (** ** The program *)
  Variable follow : bool.
  (** libff/walk.py:151-159 and 171-178: FileNotFoundError and PermissionError
      are passed over, other errors are warned about. *)
  Definition warning (e : errno) : list errno := match e with ENOENT | EACCES => [] | _ => [e] end.
  (** libff/walk.py:144-161 *)
  Fixpoint scan_entries (names l : list str) : list (str * status) * list errno :=
    match l with
    | [] => ([], [])
    | n :: l =>
        let (entries, warnings) := scan_entries names l in
        match stat follow (names ++ [n]) with
        | Got st => ((n, st) :: entries, warnings)
        | Failed e => (entries, warning e ++ warnings)
        end
    end.
  (** libff/walk.py:135-180: the entries and the warnings *)
  Definition scan_directory (names : list str) : list (str * status) * list errno :=
    match scandir names with
    | Got l => scan_entries names l
    | Failed e => ([], warning e)
    end.
  (** libff/walk.py:197-210: the entries of a directory; below them what is in
      the directories among them *)
  Fixpoint grow (below : list str -> option (list file)) (names : list str) (l : list (str * status)) : option (list file) :=
    match l with
    | [] => Some []
    | (n, st) :: l =>
        match (if str_eqb (type_of_mode (st_mode st)) ($"directory") then below (names ++ [n]) else Some []), grow below names l with
        | Some kids, Some r => Some (File n st kids :: r)
        | _, _ => None
        end
    end.
  (** libff/walk.py:182-210: what is found by going down from a directory; None
      if the fuel does not suffice. *)
  Fixpoint view (fuel : nat) (names : list str) : option (list file) :=
    match fuel with
    | O => None
    | S fuel => grow (view fuel) names (fst (scan_directory names))
    end.
End System.
