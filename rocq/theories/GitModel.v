(** Model of plugins/git.py. *)
From Coq Require Import List NArith ZArith Bool.
From Verif Require Import Py OsPath.
Import ListNotations.

(** str.split(None, 1): the first word and the rest, if there are two. *)
Fixpoint take_word (s : str) : str * str :=
  match s with
  | [] => ([], [])
  | c :: t => if is_space c then ([], s) else let '(w, r) := take_word t in (c :: w, r)
  end.
Definition split_once (s : str) : res (str * str) :=
  let '(w, r) := take_word (lstrip_p is_space s) in
  match lstrip_p is_space r with
  | [] => Err ValueError
  | r => Ok (w, r)
  end.

(** plugins/git.py:31-38, with the lines that "git ls-files" prints *)
Definition filelist (dirname : str) (lines : list str) : list str := map (os_join dirname) lines.
(** plugins/git.py:45-55, with the lines of "git status --porcelain" *)
Fixpoint status (dirname : str) (lines : list str) : res (list str) :=
  match lines with
  | [] => Ok []
  | line :: lines =>
      do x <- split_once line;
      do l <- status dirname lines;
      Ok (if str_eqb (fst x) ($"??") then l else os_join dirname (snd x) :: l)
  end.

(** repo_dir, filelist, status; or three times None *)
Definition repo := option (str * list str * list str).
(** self._cache *)
Definition cache := list (str * repo).
Fixpoint lookup (d : str) (c : cache) : option repo :=
  match c with
  | [] => None
  | (k, r) :: c => if str_eqb k d then Some r else lookup d c
  end.

(** What process() returns: repo_dir, repo, tracked, dirty *)
Record data := Data { g_repo_dir : str; g_repo : bool; g_tracked : bool; g_dirty : bool }.

Section Git.
  (** os.path.isdir; the output of git, as lines, for a repository; it does not
      change during the search. *)
  Variable isdir : str -> bool.
  Variable ls_files porcelain : str -> list str.

  (** plugins/git.py:80-95.  The depth of the recursion is limited. *)
  Fixpoint find_repo (fuel : nat) (c : cache) (dirname : str) : res (repo * cache) :=
    match lookup dirname c with
    | Some r => Ok (r, c)
    | None =>
        match fuel with
        | O => Err OutOfFuel
        | S fuel =>
            if isdir (os_join dirname ($".git")) then
              do st <- status dirname (porcelain dirname);
              let r := Some (dirname, filelist dirname (ls_files dirname), st) in
              Ok (r, (dirname, r) :: c)
            else if str_eqb dirname ($"/") then Ok (None, (dirname, None) :: c)
            else
              do x <- find_repo fuel c (OsPath.dirname dirname);
              Ok (fst x, (dirname, fst x) :: snd x)
        end
    end.
  (** plugins/git.py:97-118; None is NoData *)
  Definition process (c : cache) (abspath : str) (is_dir : bool) : res (option data * cache) :=
    let dirname := if is_dir then abspath else OsPath.dirname abspath in
    do x <- find_repo (S (length dirname)) c dirname;
    match fst x with
    | None => Ok (None, snd x)
    | Some (repo_dir, fl, st) =>
        let key (paths : list str) :=
          if is_dir then existsb (fun p => starts_with (abspath ++ ($"/")) p) paths
          else str_in abspath paths in
        Ok (Some (Data repo_dir (str_eqb repo_dir abspath) (key fl) (key st)), snd x)
    end.
  (** The entries of a search, one after the other *)
  Fixpoint process_all (c : cache) (l : list (str * bool)) : list (res (option data)) :=
    match l with
    | [] => []
    | (p, d) :: l =>
        match process c p d with
        | Ok (x, c) => Ok x :: process_all c l
        | Err e => Err e :: process_all c l
        end
    end.
End Git.
