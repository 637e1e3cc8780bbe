(** What --depth, --limit and directory arguments mean, which options cannot be
    combined. *)
From Coq Require Import List NArith ZArith Bool Permutation.
From Verif Require Import Py ArgumentsModel.
Import ListNotations.
Local Open Scope Z_scope.

(** ** --depth *)
Definition in_range (r : Z * option Z) (d : Z) : Prop :=
  fst r <= d /\ match snd r with Some stop => d <= stop | None => True end.
Definition in_ranges (l : list (Z * option Z)) (d : Z) : Prop := exists r, In r l /\ in_range r d.
(** All bounds are natural numbers. *)
Definition natural_range (r : Z * option Z) : Prop :=
  0 <= fst r /\ match snd r with Some stop => 0 <= stop | None => True end.
Definition bounded (l : list (Z * option Z)) : Prop := forall r, In r l -> snd r <> None.
(** d is deeper than every upper bound *)
Definition beyond (l : list (Z * option Z)) (d : Z) : Prop := forall r stop, In r l -> snd r = Some stop -> stop < d.

(** ** --limit *)
(** [Picks P i l k]: k are the elements of l, in order, whose positions satisfy
    P; the first position is i. *)
Inductive Picks {A} (P : Z -> Prop) : Z -> list A -> list A -> Prop :=
| picks_nil i : Picks P i [] []
| picks_yes i x l k : P i -> Picks P (i + 1) l k -> Picks P i (x :: l) (x :: k)
| picks_no i x l k : ~ P i -> Picks P (i + 1) l k -> Picks P i (x :: l) k.
(** A position of a list of n elements; negative ones count from the end. *)
Definition from_start (n z : Z) : Z := if z <? 0 then n + z else z.
Definition in_slice (n : Z) (s : Z * option Z) (i : Z) : Prop :=
  from_start n (fst s) <= i /\ match snd s with Some stop => i < from_start n stop | None => True end.

(** ** Directory arguments *)
(** [Splits l kept taken]: some elements of l are taken out *)
Inductive Splits {A} : list A -> list A -> list A -> Prop :=
| splits_nil : Splits [] [] []
| splits_keep x l k t : Splits l k t -> Splits (x :: l) (x :: k) t
| splits_take x l k t : Splits l k t -> Splits (x :: l) k (x :: t).

(** The directory named by a path, as the list of names from the root, without
    regard to symbolic links. *)
Fixpoint go (at_ : list str) (path : list str) : list str :=
  match path with
  | [] => at_
  | c :: path =>
      if str_eqb c [] || str_eqb c ($".") then go at_ path
      else if str_eqb c ($"..") then go (removelast at_) path
      else go (at_ ++ [c]) path
  end.
Definition absolute (path : str) : bool := match path with c :: _ => N.eqb c 47 | [] => false end.
Definition place (cwd path : str) : list str :=
  if absolute path then go [] (split_on 47%N path) else go (go [] (split_on 47%N cwd)) (split_on 47%N path).
(** b is the same directory as a or above it *)
Definition above (b a : list str) : Prop := exists rest, a = b ++ rest.
(** Two slashes at the beginning, but not three. *)
Definition two_slashes (path : str) : Prop := exists rest, path = 47%N :: 47%N :: rest /\ absolute rest = false.
(** Taken for a directory: contains a slash and is one *)
Definition names_directory (isdir : str -> bool) (t : str) : Prop := In 47%N t /\ isdir t = true.

(** ** Other options *)
(** The tests added by -I, --one-file-system and -H. *)
Definition flag_tests (a : pargs) : list str :=
  (if a_ignore a then [$"ignored=yes"] else []) ++ (if a_one_file_system a then [$"samedev=no"] else []) ++
  (if a_hide a then [$"hide=yes"] else []).

Definition given {A} (x : option (list A)) : Prop := exists y l, x = Some (y :: l).
(** Options that cannot be combined *)
Definition conflict (debug : bool) (a : pargs) : Prop :=
  (given (a_count a) /\ (given (a_exec a) \/ given (a_exec_batch a) \/ a_limit a <> None)) \/
  (debug = true /\ a_profile a = true /\ (given (a_exec a) \/ given (a_exec_batch a))).
(** The warnings, and what is switched off *)
Definition warned (a b : pargs) (w : list warning) : Prop :=
  NoDup w /\
  (In OutputWithExec w <-> a_output a <> [$"path"] /\ (given (a_exec a) \/ given (a_exec_batch a))) /\
  (In OutputWithCount w <-> a_output a <> [$"path"] /\ given (a_count a)) /\
  (In SortWithCount w <-> given (a_sort a) /\ given (a_count a)) /\
  (In LimitWithoutSort w <-> a_limit a <> None /\ ~ given (a_sort a)) /\
  (given (a_exec a) \/ given (a_exec_batch a) \/ given (a_count a) -> a_output b = [$"path"]) /\
  (~ (given (a_exec a) \/ given (a_exec_batch a) \/ given (a_count a)) -> a_output b = a_output a) /\
  (given (a_count a) -> ~ given (a_sort b)) /\ (~ given (a_count a) -> a_sort b = a_sort a) /\
  a_limit b = a_limit a /\ a_exec b = a_exec a /\ a_exec_batch b = a_exec_batch a.
