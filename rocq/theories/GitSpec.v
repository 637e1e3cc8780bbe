(** Repositories, tracked and changed files. *)
From Coq Require Import List NArith ZArith Bool.
From Verif Require Import Py IgnoreSpec GitModel.
Import ListNotations.

(** Directories are lists of names.  [git r]: there is a directory .git in
    r. *)
Section Git.
  Variable git : list str -> Prop.
  (** r is the nearest repository around the directory d. *)
  Definition nearest_repo (d r : list str) : Prop :=
    (exists rest, d = r ++ rest) /\ git r /\
    forall r' rest', d = r' ++ rest' -> git r' -> length r' <= length r.
  Definition no_repo (d : list str) : Prop := forall r rest, d = r ++ rest -> ~ git r.
End Git.

(** The directory in which an entry is looked for *)
Definition home (comps : list str) (is_dir : bool) : list str := if is_dir then comps else removelast comps.
(** Some file of the list is the entry, or is below it if the entry is a
    directory. *)
Definition concerns (comps : list str) (is_dir : bool) (file : list str) : Prop :=
  if is_dir then exists rest, rest <> [] /\ file = comps ++ rest else file = comps.

(** What git prints: paths relative to the repository, and two letters for the
    state of the index and of the file, without quotation marks (names with
    blanks or special characters are quoted) and without renamed files. *)
Record change := Change { ch_index : char; ch_file : char; ch_path : list str }.
Definition state_letter (c : char) : Prop := c = 32%N \/ is_space c = false.
Definition good_path (l : list str) : Prop := l <> [] /\ Forall plain_name l /\ match l with (c :: _) :: _ => is_space c = false | _ => True end.
Definition good_change (c : change) : Prop :=
  state_letter (ch_index c) /\ state_letter (ch_file c) /\ (is_space (ch_index c) = false \/ is_space (ch_file c) = false) /\
  good_path (ch_path c).
Definition untracked (c : change) : Prop := ch_index c = 63%N /\ ch_file c = 63%N.
Definition file_line (l : list str) : str := join_with ($"/") l.
Definition change_line (c : change) : str := [ch_index c; ch_file c; 32%N] ++ file_line (ch_path c).

(** What is right for an entry *)
Section Right.
  Variable isdir : str -> bool.
  Definition git (r : list str) : Prop := isdir (abs_dir (r ++ [$".git"])) = true.
  Definition right_repo (comps : list str) (is_dir : bool) (x : option data) : Prop :=
    match x with
    | None => no_repo git (home comps is_dir)
    | Some y => exists r, nearest_repo git (home comps is_dir) r /\ g_repo_dir y = abs_dir r /\ (g_repo y = true <-> r = comps)
    end.
  (** The files and the changes of a repository *)
  Variable files : list str -> list (list str).
  Variable changes : list str -> list change.
  Definition right (comps : list str) (is_dir : bool) (x : option data) : Prop :=
    match x with
    | None => no_repo git (home comps is_dir)
    | Some y => exists r, nearest_repo git (home comps is_dir) r /\ g_repo_dir y = abs_dir r /\
        (g_repo y = true <-> r = comps) /\
        (g_tracked y = true <-> exists f, In f (files r) /\ concerns comps is_dir (r ++ f)) /\
        (g_dirty y = true <-> exists c, In c (changes r) /\ ~ untracked c /\ concerns comps is_dir (r ++ ch_path c))
    end.
End Right.
