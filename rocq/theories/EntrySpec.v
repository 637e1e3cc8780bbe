(** Specification for the attributes of entries. *)
From Coq Require Import List NArith ZArith Bool.
From Verif Require Import Py PathSpec.
Import ListNotations.

(** [p] is the name [n] inside the directory [d] ("" is the current one). *)
Definition inside (d n p : str) : Prop :=
  (d = [] /\ p = n) \/ (d = [SLASH] /\ p = SLASH :: n) \/
  (d <> [] /\ d <> [SLASH] /\ p = d ++ SLASH :: n).

Definition dotted (n : str) : Prop := exists t, n = DOT :: t.

(** File formats by the value of the four format bits (inode(7)). *)
Definition format_name (f : Z) : str :=
  match f with
  | 1 => $"fifo" | 2 => $"char" | 4 => $"directory" | 6 => $"block"
  | 8 => $"file" | 10 => $"symlink" | 12 => $"socket" | _ => $"other"
  end%Z.
(** The names documented for the type attribute (libff/type.py:190-191). *)
Definition documented_types : list str :=
  [$"directory"; $"file"; $"symlink"; $"socket"; $"fifo"; $"char"; $"block";
   $"door"; $"port"; $"whiteout"; $"other"].

(** The mountpoint [mp] contains [p] (or is [p]). *)
Definition contains (mp p : str) : Prop :=
  mp = [SLASH] \/ p = mp \/ exists t, p = mp ++ SLASH :: t.
(** The line [m] of the mount table is a nearest mountpoint of [p]. *)
Definition nearest (lines : list (str * str * str)) (p : str) (m : str * str * str) : Prop :=
  In m lines /\ contains (fst (fst m)) p /\
  forall m', In m' lines -> contains (fst (fst m')) p ->
    length (fst (fst m')) <= length (fst (fst m)).
