(** Specification: what the lists say. *)
From Coq Require Import List NArith ZArith Bool.
From Verif Require HelpModel.
From Verif Require Import Py ArgsModel UsageModel HelpSpec UsageSpec.
Import ListNotations.
Open Scope N_scope.

(** A format as it is shown: each directive as its letter, twice *)
Inductive Directive : char -> Prop :=
| year : Directive 89 | month : Directive 109 | day : Directive 100
| hour : Directive 72 | minute : Directive 77 | second : Directive 83.
Inductive Pattern : str -> str -> Prop :=
| Pattern_end : Pattern [] []
| Pattern_directive d f s : Directive d -> Pattern f s -> Pattern (37 :: d :: f) (d :: d :: s)
| Pattern_char c f s : (c = 37 -> forall d t, f = d :: t -> ~ Directive d) -> Pattern f s -> Pattern (c :: f) (c :: s).
(** A text that is written as a pattern says: two digits for a letter that is
    there twice *)
Inductive Follows : str -> str -> Prop :=
| Follows_end : Follows [] []
| Follows_digits d p a b t : Directive d -> is_d a = true -> is_d b = true -> Follows p t -> Follows (d :: d :: p) (a :: b :: t)
| Follows_char c p t : ~ Directive c -> Follows p t -> Follows (c :: p) (c :: t).

(** An exit code and what it means, as an option of the page *)
Definition exit_item (x : Z * str) : item := Entry (HOpt [str_of_Z (fst x)] StoreTrue None (snd x)).
(** A text with blanks behind it *)
Definition Padded (s t : str) : Prop := exists b, t = s ++ b /\ forallb is_space b = true.
(** A meaning that can be put into the page *)
Definition Meaning (s : str) : Prop := Trim s /\ OneLine s /\ ~ begins_control s.
(** A format that can be put into the page: its pattern has no line breaks,
    escapes and double blanks *)
Definition Showable (f : str) : Prop := forall s, Pattern f s -> OneLine s /\ forall a b, s <> a ++ [32; 32] ++ b.
