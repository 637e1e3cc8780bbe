(** Specification for C132. *)
From Verif Require Import WalkModel.

(** A process that has not ended *)
Definition alive {A} (w : worker A) : Prop := match w with Idle | Getting _ | Waiting | Run _ => True | _ => False end.
