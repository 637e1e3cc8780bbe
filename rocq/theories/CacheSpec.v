(** Specification of the cache. *)
From Coq Require Import List NArith ZArith Bool.
From Verif Require Import Py CacheModel.
Import ListNotations.

Section Spec.
  Variables V T F R : Type.
  Variable compute : str -> str -> F -> res (cached V).
  Variable tag_of : str -> F -> T.
  Variable finish : str -> str -> cached V -> R.
  Variable pickle_tag : T -> str.
  Variable dumps : cached V -> option str.
  Variable loads : str -> cached V.

  (** No database, no process; [past] has the files that exist. *)
  Definition initial (s : state T F) : Prop :=
    db s = [] /\ (forall i, procs s i = None) /\ forall path f, In (path, f) (past s) -> files s path = f.
  (** The row is the outcome of a completed computation for a file, under the
      tag of a state of this file. *)
  Definition Computed (s : state T F) (table : str) (r : row) : Prop :=
    exists path f0 f c data, In (path, f0) (past s) /\ In (path, f) (past s) /\
      r = Row (encode path) (pickle_tag (tag_of table f0)) data /\ compute table path f = Ok c /\ dumps c = Some data.
  (** Data is a function of path and cache tag, and different paths have
      different keys. *)
  Definition functional (s : state T F) : Prop := forall table path f path' f',
    In (path, f) (past s) -> In (path', f') (past s) -> encode path = encode path' -> tag_of table f = tag_of table f' ->
    compute table path f = compute table path' f'.
  (** What the plugin itself says. *)
  Definition Direct (s : state T F) (table path : str) (r : R) : Prop :=
    exists c, compute table path (files s path) = Ok c /\ r = finish table path c.
End Spec.
Arguments initial {T F}.
Arguments Computed {V T F}.
Arguments functional {V T F}.
Arguments Direct {V T F R}.

(** * Names of tables *)

(** The pattern [m] of a name covers the beginning of [s]: the underscore is
    any character. *)
Fixpoint covers (m s : str) : Prop :=
  match m, s with
  | [], _ => True
  | _ :: _, [] => False
  | c :: m, d :: s => (c = 95%N \/ c = d) /\ covers m s
  end.
(** names of plugins: lower-case letters, digits, underscore *)
Definition simple (c : char) : bool := (97 <=? c)%N && (c <=? 122)%N || (48 <=? c)%N && (c <=? 57)%N || N.eqb c 95.
Definition plugin_name (n : str) : Prop := n <> [] /\ forallb simple n = true.
