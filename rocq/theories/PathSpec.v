(** Specification of path splitting, independent of libff/path.py: the
    functions of CPython's posixpath and a declarative description of
    extensions. *)
From Coq Require Import List NArith ZArith Bool.
From Verif Require Import Py.
Import ListNotations.

(** Everything after the last slash, and everything up to and including it. *)
Fixpoint after_last (s : str) : str :=
  match s with
  | [] => []
  | x :: t => if has_char SLASH t then after_last t else if N.eqb x SLASH then t else s
  end.
Definition upto_last (s : str) : str := firstn (length s - length (after_last s)) s.

(** posixpath.split: the head loses its trailing slashes unless it consists
    of slashes only. *)
Definition os_split (p : str) : str * str :=
  let head := upto_last p in
  ((if forallb (N.eqb SLASH) head then head else rstrip_p (N.eqb SLASH) head), after_last p).

(** posixpath.join of two parts. *)
Definition os_join (a b : str) : str :=
  if starts_with [SLASH] b then b
  else if match a with [] => true | _ => ends_with [SLASH] a end then a ++ b
  else a ++ [SLASH] ++ b.

(** A file name: not empty, no slash. *)
Definition name_ok (n : str) : Prop := n <> [] /\ ~ In SLASH n.

(** Paths without empty components: relative or absolute, the root included. *)
Inductive normal : str -> Prop :=
| normal_root : normal [SLASH]
| normal_rel cs : cs <> [] -> Forall name_ok cs -> normal (join_with [SLASH] cs)
| normal_abs cs : cs <> [] -> Forall name_ok cs -> normal (SLASH :: join_with [SLASH] cs).

(** [ExtSplit p r e]: [e] is the extension of [p].  Either it is a dot
    followed by characters that are neither dot nor slash, and the part of the
    file name in front of it has a character that is not a dot; or it is empty
    because the file name cannot be divided like this. *)
Definition divides (p r e : str) : Prop :=
  p = r ++ e /\
  exists x d k, e = DOT :: x /\ ~ In DOT x /\ ~ In SLASH x /\
    r = d ++ k /\ ~ In SLASH k /\ (d = [] \/ exists d', d = d' ++ [SLASH]) /\
    exists c, In c k /\ c <> DOT.
Definition ExtSplit (p r e : str) : Prop :=
  divides p r e \/ (r = p /\ e = [] /\ forall r' e', ~ divides p r' e').
