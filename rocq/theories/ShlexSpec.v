(** Specification: words of a command line, as in a shell. *)
From Coq Require Import List NArith Bool.
From Verif Require Import Py.
Import ListNotations.

Definition blank (c : char) : Prop := In c [32; 9; 10; 13]%N.
(** single quote, double quote and backslash *)
Definition special (c : char) : Prop := In c [39; 34; 92]%N.
(** Between double quotes a backslash only counts before a double quote and
    another backslash. *)
Inductive Inside : str -> str -> Prop :=
| inside_end : Inside [] []
| inside_char c s t : c <> 34%N -> c <> 92%N -> Inside s t -> Inside (c :: s) (c :: t)
| inside_escape c s t : c = 34%N \/ c = 92%N -> Inside s t -> Inside (92%N :: c :: s) (c :: t)
| inside_backslash c s t : c <> 34%N -> c <> 92%N -> Inside s t -> Inside (92%N :: c :: s) (92%N :: c :: t).
(** One part of a word and what it stands for *)
Inductive Part : str -> str -> Prop :=
| part_char c : ~ blank c -> ~ special c -> Part [c] [c]
| part_escape c : Part [92%N; c] [c]
| part_single s : ~ In 39%N s -> Part (39%N :: s ++ [39%N]) s
| part_double s t : Inside s t -> Part (34%N :: s ++ [34%N]) t.
Inductive Parts : str -> str -> Prop :=
| parts_one p v : Part p v -> Parts p v
| parts_more p v s t : Part p v -> Parts s t -> Parts (p ++ s) (v ++ t).
(** Words with blanks between them; there may be blanks at both ends. *)
Definition blanks (s : str) : Prop := forall c, In c s -> blank c.
Inductive Words : str -> list str -> Prop :=
| words_none s : blanks s -> Words s []
| words_last b s v : blanks b -> Parts s v -> Words (b ++ s) [v]
| words_more b s v c rest l : blanks b -> Parts s v -> blank c -> Words rest l -> Words (b ++ s ++ c :: rest) (v :: l).

(** A way to write any text as one word: in single quotes, where a single quote itself
    is put in double quotes *)
Fixpoint in_quotes (s : str) : str :=
  match s with
  | [] => []
  | c :: s => if N.eqb c 39 then [39; 34; 39; 34; 39]%N ++ in_quotes s else c :: in_quotes s
  end.
Definition quote (s : str) : str := 39%N :: in_quotes s ++ [39%N].
