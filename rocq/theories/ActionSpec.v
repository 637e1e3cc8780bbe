(** The commands that belong to a list of entries. *)
From Coq Require Import List NArith ZArith Bool.
From Verif Require Import Py TypeModel FieldModel TemplateSpec.
Import ListNotations.

Section Commands.
  Context {A : Type}.
  Variable get : A -> str * str -> res value.
  Variable human : ty -> Z -> str.
  Variable all : bool.
  Variable slot : str -> field -> Prop.
  (** the templates of the command line *)
  Variable full : list (list piece).
  (** One command for every entry, in the same order; there is none for an
      entry that lacks a value. *)
  Inductive Commands : list A -> list (list str) -> Prop :=
  | commands_end : Commands [] []
  | commands_one e l args out : Forall2 (Expands get human all slot e) full args -> Commands l out -> Commands (e :: l) (args :: out)
  | commands_none e l out : Exists (Fails get all slot e) full -> Commands l out -> Commands (e :: l) out.
End Commands.
