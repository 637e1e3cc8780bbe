(** What is expected of an output that may end early. *)
From Coq Require Import List Permutation.
From Verif Require Import Py PipeModel.
Import ListNotations.

(** Everything that is written is read. *)
Definition all_read (medium : nat -> option failure) : Prop := forall n, medium n = None.
(** A reader that has gone does not come back. *)
Definition stays_broken (medium : nat -> option failure) : Prop :=
  forall n, medium n = Some BrokenPipe -> medium (S n) = Some BrokenPipe.
(** The only thing that happens is that the reader goes away. *)
Definition only_closed (medium : nat -> option failure) : Prop :=
  stays_broken medium /\ forall n, medium n <> Some OtherOSError.
(** [out] has the lines of all chunks, those of a chunk in their order. *)
Inductive merged : list (list line) -> list line -> Prop :=
| merged_none ls : Forall (eq []) ls -> merged ls []
| merged_next ls l t ls' out : Permutation ls ((l :: t) :: ls') -> merged (t :: ls') out -> merged ls (l :: out).
(** The number of lines that the processes have at hand *)
Definition lines_of (w : worker) : list line := match w with Prints l => l | Failed => [] end.
Definition held (st : state) : nat := length (concat (map lines_of (workers st))).
