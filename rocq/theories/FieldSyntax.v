(** The syntax of fields, as the manual describes it: [plugin.]attribute,
    optionally a colon, a width and a modifier. *)
From Coq Require Import List NArith ZArith Bool.
From Verif Require Import Py.
Import ListNotations.

Definition letter (c : char) : Prop := (97 <= c <= 122 \/ 65 <= c <= 90)%N.
Definition digit (c : char) : Prop := (48 <= c <= 57)%N.
Definition wordchar (c : char) : Prop := letter c \/ digit c \/ c = 95%N.
(** at least two characters *)
Definition Ident (s : str) : Prop := exists c d t, s = c :: d :: t /\ letter c /\ wordchar d /\ forall x, In x t -> wordchar x.
Definition FieldName (s : str) : Prop := Ident s \/ exists p a, Ident p /\ Ident a /\ s = p ++ $"." ++ a.
Definition opt (o : option str) : str := match o with Some s => s | None => [] end.
Definition Width (w : option str) : Prop :=
  forall s, w = Some s -> exists ds, (s = ds \/ s = 45%N :: ds) /\ ds <> [] /\ forall x, In x ds -> digit x.
Definition Modifier (m : option str) : Prop := forall s, m = Some s -> In s [$"h"; $"o"; $"x"; $"n"; $"v"].
Inductive FieldText : str -> str -> option str -> option str -> Prop :=
| ft_name name : FieldName name -> FieldText name name None None
| ft_full name w m : FieldName name -> Width w -> Modifier m -> FieldText (name ++ $":" ++ opt w ++ opt m) name w m.
Definition blanks (s : str) : Prop := forall c, In c s -> is_space c = true.
