(** What can be said about the start of ff, independent of how it works. *)
From Coq Require Import List NArith Bool.
From Verif Require Import Py ExprSpec ShlexSpec.
Import ListNotations.

(** The arguments: the words of FF_OPTIONS and those of the command line *)
Inductive Given : option str -> list str -> list str -> Prop :=
| given_argv argv : Given None argv argv
| given_both s l argv : Words s l -> Given (Some s) argv (l ++ argv).
(** A test with a reference, "attribute={}value" or "attribute={name}value" *)
Definition refers (t : str) : Prop := exists a o r v, Test t a o (Some r) v.
