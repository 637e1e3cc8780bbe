(** When two searches are expected to be the same. *)
From Coq Require Import List Bool Permutation.
From Verif Require Import Py GrammarSpec ArgumentsModel.
Import ListNotations.

(** The two expressions are true together, whatever their tests yield. *)
Definition Equivalent (ess1 ess2 : list (list bexp)) : Prop :=
  forall v : str -> bool, denote_alts v ess1 = denote_alts v ess2.
(** The expression with other tests *)
Fixpoint renamed (f : str -> str) (e : bexp) : bexp :=
  match e with
  | BTest t => BTest (f t)
  | BGroup n alts => BGroup n (map (map (renamed f)) alts)
  end.
(** The arguments a with other tests, other tests for -e and other directories *)
Definition search (a : pargs) (tests exclude directories : list str) : pargs :=
  PArgs tests directories exclude (a_depth a) (a_ignore a) (a_one_file_system a) (a_hide a)
    (a_json a) (a_color a) (a_absolute_path a) (a_count a) (a_limit a) (a_sort a) (a_output a) (a_exec a)
    (a_exec_batch a) (a_profile a).
(** The same members, in any order and any number of times *)
Definition same_members {A} (l k : list A) : Prop := incl l k /\ incl k l.
