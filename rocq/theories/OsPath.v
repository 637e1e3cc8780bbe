(** The functions of os.path (CPython Lib/posixpath.py) that ff uses, on POSIX. *)
From Coq Require Import List NArith ZArith Bool Lia.
From Verif Require Import Py PathModel.
Import ListNotations.

(** os.path.join(a, b) *)
Definition os_join (a b : str) : str :=
  if starts_with ($"/") b then b
  else if match a with [] => true | _ => ends_with ($"/") a end then a ++ b
  else a ++ ($"/") ++ b.

(** One component in the loop of os.path.normpath; [acc] is new_comps
    reversed, [rooted] says that the path starts with a slash. *)
Definition norm_step (rooted : bool) (acc : list str) (comp : str) : list str :=
  if str_eqb comp [] || str_eqb comp ($".") then acc
  else if negb (str_eqb comp ($"..")) then comp :: acc
  else match acc with
       | [] => if rooted then [] else [comp]
       | x :: acc' => if str_eqb x ($"..") then comp :: acc else acc'
       end.
Definition norm_comps (rooted : bool) (comps : list str) : list str :=
  rev (fold_left (norm_step rooted) comps []).
Definition normpath (path : str) : str :=
  match path with
  | [] => $"."
  | _ =>
      let rooted := starts_with ($"/") path in
      let slashes := if rooted then
                       if starts_with ($"//") path && negb (starts_with ($"///") path) then $"//" else $"/"
                     else [] in
      match slashes ++ join_with ($"/") (norm_comps rooted (split_on SLASH path)) with
      | [] => $"."
      | p => p
      end
  end.
(** os.path.abspath(path) in the directory [cwd] *)
Definition abspath (cwd path : str) : str :=
  normpath (if starts_with ($"/") path then path else os_join cwd path).
(** os.path.dirname(path) *)
Definition dirname (path : str) : str :=
  let head := firstn (Z.to_nat (rfind SLASH path + 1)) path in
  if forallb (N.eqb SLASH) head then head else rstrip_p (N.eqb SLASH) head.
