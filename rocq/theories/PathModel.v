(** Model of libff/path.py. *)
From Coq Require Import List NArith ZArith Bool Lia.
From Verif Require Import Py.
Import ListNotations.
Open Scope Z_scope.

(** str.rfind(c) for one character: index of the last occurrence or -1. *)
Fixpoint rfind_from (c : char) (s : str) (i best : Z) : Z :=
  match s with
  | [] => best
  | x :: t => rfind_from c t (i + 1) (if N.eqb x c then i else best)
  end.
Definition rfind (c : char) (s : str) : Z := rfind_from c s 0 (-1).

(** The loop of libff/path.py:35-38: is there an index in [idx, idx+n) whose
    character is not a dot?  [path[idx:idx+1] != "."] on an index inside the
    string. *)
Fixpoint dot_loop (path : str) (idx : Z) (n : nat) : bool :=
  match n with
  | O => false
  | S n' =>
      if negb (str_eqb (slice path (Some idx) (Some (idx + 1))) [DOT]) then true
      else dot_loop path (idx + 1) n'
  end.

(** libff/path.py:27-40 splitext *)
Definition splitext (path : str) : str * str :=
  let sep := rfind SLASH path in
  let dot := rfind DOT path in
  if (dot >? sep) && dot_loop path (sep + 1) (Z.to_nat (dot - (sep + 1)))
  then (slice path None (Some dot), slice path (Some dot) None)
  else (path, slice path None (Some 0)).

(** libff/path.py:42-51 split *)
Definition split (path : str) : str * str :=
  let sep := rfind SLASH path in
  if sep <? 0 then ([], path)
  else if sep =? 0 then ([SLASH], slice path (Some 1) None)
  else (slice path None (Some sep), slice path (Some (sep + 1)) None).

(** libff/path.py:53-64 join *)
Definition join (part1 part2 : str) : str :=
  match part1 with
  | [] => part2
  | _ =>
      match part2 with
      | [] => part1
      | _ => if str_eqb part1 [SLASH] then part1 ++ part2 else part1 ++ SLASH :: part2
      end
  end.
