(** Specification: the shared objects of an executable. *)
From Coq Require Import List NArith ZArith Bool Permutation Sorted.
From Verif Require Import Py StrOrder ElfModel.
Import ListNotations.
Open Scope N_scope.

(** The names a list of sections asks for *)
Inductive Names : list section -> list str -> Prop :=
| Names_end : Names [] []
| Names_other ss l : Names ss l -> Names (Other :: ss) l
| Names_dynamic ss l : Names ss l -> Names (Dynamic [] :: ss) l
| Names_needed n tags ss l : Names (Dynamic tags :: ss) l -> Names (Dynamic (($"DT_NEEDED", n) :: tags) :: ss) (n :: l)
| Names_skip t n tags ss l : t <> $"DT_NEEDED" -> Names (Dynamic tags :: ss) l -> Names (Dynamic ((t, n) :: tags) :: ss) l.
(** In the order of code points *)
Inductive Before : str -> str -> Prop :=
| Before_nil t : Before [] t
| Before_lt a b s t : a < b -> Before (a :: s) (b :: t)
| Before_eq c s t : Before s t -> Before (c :: s) (c :: t).
Definition Magic (s : str) : Prop := exists t, s = [127; 69; 76; 70] ++ t.
