(** What the lines for a list of entries are. *)
From Coq Require Import List NArith ZArith Bool.
From Verif Require Import Py EntryModel TypeModel FieldModel ConsoleModel ConsoleSpec ArgumentsSpec SortModel SortSpec.
Import ListNotations.

Section Lines.
  Variable get : centry -> str * str -> res value.
  Variable human : ty -> Z -> str.
  Variable st : style.
  Variable env : str.
  Variable all : bool.
  Variable separator : str.
  Variable fields : list field.
  (** One line for every entry, in the same order; entries that lack a value
      for one of the fields are left out. *)
  Inductive Lines : list centry -> list str -> Prop :=
  | lines_end : Lines [] []
  | lines_shown e l cells ls : ~ Suppressed get all e fields -> Forall2 (Cell get human st env e) fields cells ->
      Lines l ls -> Lines (e :: l) (join_with separator cells :: ls)
  | lines_suppressed e l ls : Suppressed get all e fields -> Lines l ls -> Lines (e :: l) ls.
End Lines.

(** The part of a list that --limit selects *)
Definition Limited {A} (limit : option (Z * option Z)) (l k : list A) : Prop :=
  match limit with
  | None => k = l
  | Some s => Picks (in_slice (Z.of_nat (length l)) s) 0 l k
  end.
(** --sort and --reverse *)
Definition Ordered {A} (get : A -> str * str -> res value) (sort : option (list field)) (reverse : bool) (l k : list A) : Prop :=
  match sort with
  | None => k = l
  | Some fields => exists key, (forall a, In a l -> render get fields a = Ok (key a)) /\ Sorted_by key reverse l k
  end.
