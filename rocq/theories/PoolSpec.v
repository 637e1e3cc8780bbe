(** What the pool of threads should do.  The model is imported for its data
    types. *)
From Coq Require Import List.
From Verif Require Import PoolModel.
Import ListNotations.

(** The commands of the entries that have one *)
Definition commands {A B} (render : A -> option B) (l : list A) : list B :=
  flat_map (fun a => match render a with Some b => [b] | None => [] end) l.
(** How many commands have been started *)
Definition started {A B} (s : pool A B) : nat :=
  length (pran s) + length (filter (fun t => match t with PRun _ => true | _ => false end) (threads s)).
(** How many threads wait for a command *)
Definition waiting {B} (ts : list (thread B)) : nat :=
  length (filter (fun t => match t with PGet => true | _ => false end) ts).
