(** Property C108: how results are presented. *)
From Coq Require Import List NArith ZArith Bool.
From Verif Require Import Py ArgumentsModel ArgumentsSpec ConsoleModel PresentModel PresentSpec PresentProofs.
Import ListNotations.

Section Present.
  (** os.path.isdir, the working directory, __debug__, whether standard output is a terminal *)
  Variable isdir : str -> bool.
  Variable cwd : str.
  Variable debug terminal : bool.
  Notation start_processing := (start_processing isdir cwd debug terminal).
  (** Of the presentations exactly one is asked for, and that one is chosen. *)
  Theorem C108_presentation : forall a p, json_known a -> start_processing a = Ok p -> Asked a terminal (presents p).
  Proof. exact (start_presents isdir cwd debug terminal). Qed.
  Theorem C108_unique : forall a p q, Asked a terminal p -> Asked a terminal q -> p = q.
  Proof. exact (fun a => asked_unique a terminal). Qed.
  (** Results are only held back if they have to be. *)
  Theorem C108_waits : forall a p, json_known a -> start_processing a = Ok p -> (waits p <-> Waits a).
  Proof. exact (start_waits isdir cwd debug terminal). Qed.
End Present.
Print Assumptions C108_presentation.
Print Assumptions C108_unique.
Print Assumptions C108_waits.

Definition pa (json : option str) (color : str) (count sort exec batch : option (list str)) : pargs :=
  PArgs [] [$"."] [] None false false false json color false count None sort [$"path"] exec batch false.
Definition pstart (terminal : bool) := start_processing (fun _ => true) ($"/h") true terminal.
Example C108_example :
  json_known (pa (Some ($"jsonl")) ($"always") None None None None) /\
  pstart true (pa (Some ($"jsonl")) ($"always") None None None None) = Ok (ImmediateConsole JsonlConsole) /\
  pstart true (pa (Some ($"json")) ($"always") None None None None) = Ok (CollectiveConsole JsonConsole) /\
  pstart true (pa None ($"auto") None None None None) = Ok (ImmediateConsole ColorConsole) /\
  pstart false (pa None ($"auto") None (Some [$"size"]) None None) = Ok (CollectiveConsole TextConsole) /\
  pstart false (pa None ($"always") None None None None) = Ok (ImmediateConsole ColorConsole) /\
  pstart true (pa None ($"always") (Some [[]]) (Some [$"size"]) None None) = Ok (CollectiveConsole NullConsole) /\
  pstart true (pa (Some ($"json")) ($"auto") None None (Some [$"ls"]) None) = Ok CollectiveExec /\
  pstart true (pa None ($"auto") None None (Some [$"ls"]) None) = Ok ImmediateExec.
Proof. split; [right; now right|]. repeat split; vm_compute; reflexivity. Qed.
