(** Which plugin an attribute name belongs to. *)
From Coq Require Import List NArith.
From Verif Require Import Py TypeModel RegistryModel.
Import ListNotations.

(** p is the plugin that was loaded under its name: the first one found. *)
Definition Loaded (found : list plugin) (p : plugin) : Prop :=
  exists before after, found = before ++ p :: after /\ ~ In (p_name p) (map p_name before).
(** The plugin of that name has an attribute n. *)
Definition Provides (found : list plugin) (pl n : str) : Prop :=
  exists p, Loaded found p /\ p_name p = pl /\ In n (map fst (p_attrs p)).
(** What an unqualified name stands for. *)
Definition StandsFor (found : list plugin) (n pl : str) : Prop :=
  Provides found pl n /\
  (pl = $"file" \/ ~ Provides found ($"file") n /\ forall pl', Provides found pl' n -> pl' = pl).
(** Classes with multiple inheritance: [bases] gives the direct base classes. *)
Section Classes.
  Variable C : Type.
  Variable bases : C -> list C.
  Inductive derives : C -> C -> Prop :=
  | derives_refl c : derives c c
  | derives_step c b d : In b (bases c) -> derives b d -> derives c d.
  (** A method resolution order: all ancestors, each class before its
      ancestors. *)
  Definition is_mro (c : C) (l : list C) : Prop :=
    (forall d, In d l <-> derives c d) /\
    (forall l1 d l2, l = l1 ++ d :: l2 -> forall e, In e l1 -> derives d e -> False).
End Classes.
