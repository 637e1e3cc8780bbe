(** Where a symbolic link leads. *)
From Coq Require Import List NArith ZArith Bool.
From Verif Require Import Py PathSpec ArgumentsSpec.
Import ListNotations.

(** The location meant by the text of a link in a directory: the text itself
    if it is absolute, otherwise it is to be read from the directory. *)
Definition meant (dir link : str) : str :=
  if absolute link then link else match dir with [] => link | _ => dir ++ [SLASH] ++ link end.
(** Two paths take the same steps: slashes more or less do not matter. *)
Definition steps (p : str) : list str := filter (fun c => negb (str_eqb c [])) (split_on SLASH p).
Definition same_way (p q : str) : Prop := absolute p = absolute q /\ steps p = steps q.
