(** Specification for C123: brackets that belong together. *)
From Coq Require Import List.
From Verif Require Import Py GrammarSpec.
Import ListNotations.

(** [Balanced n ts]: after [n] opening brackets that are still to be closed,
    every closing bracket in [ts] closes one and none is left open. *)
Inductive Balanced : nat -> list str -> Prop :=
| Balanced_nil : Balanced 0 []
| Balanced_open n t ts : is_open t -> Balanced (S n) ts -> Balanced n (t :: ts)
| Balanced_close n t ts : is_close t -> Balanced n ts -> Balanced (S n) (t :: ts)
| Balanced_other n t ts : ~ is_open t -> ~ is_close t -> Balanced n ts -> Balanced n (t :: ts).
