(** gitignore-like patterns, independent of the code. *)
From Coq Require Import List NArith ZArith Bool.
From Verif Require Import Py.
Import ListNotations.

(** One element of the pattern for a name. *)
Inductive item :=
| ILit (c : char)                              (* a character *)
| IAny                                         (* ? *)
| IStar                                        (* * *)
| ISet (neg : bool) (rs : list (char * char)). (* [...] or [!...] *)

(** A pattern for a path: patterns for names, and [**]. *)
Inductive elem := PName (l : list item) | PDeep.

(** How they are written. *)
Definition range_text (r : char * char) : str :=
  if N.eqb (fst r) (snd r) then [fst r] else [fst r; 45%N; snd r].
Definition item_text (i : item) : str :=
  match i with
  | ILit c => [c]
  | IAny => $"?"
  | IStar => $"*"
  | ISet neg rs => $"[" ++ (if neg then $"!" else []) ++ flat_map range_text rs ++ $"]"
  end.
Definition elem_text (e : elem) : str :=
  match e with PName l => flat_map item_text l | PDeep => $"**" end.
Definition body_text (l : list elem) : str := join_with ($"/") (map elem_text l).
Record pattern := { p_negated : bool; p_leading : bool; p_elems : list elem; p_directory : bool }.
Definition pattern_text (p : pattern) : str :=
  (if p_negated p then $"!" else []) ++ (if p_leading p then $"/" else []) ++
  body_text (p_elems p) ++ (if p_directory p then $"/" else []).

(** What they match. *)
Definition in_range (c : char) (r : char * char) : Prop := (fst r <= c <= snd r)%N.
Inductive ItemMatch : item -> str -> Prop :=
| im_lit c : ItemMatch (ILit c) [c]
| im_any c : c <> SLASH -> ItemMatch IAny [c]
| im_star s : ~ In SLASH s -> ItemMatch IStar s
| im_set rs c : Exists (in_range c) rs -> ItemMatch (ISet false rs) [c]
| im_nset rs c : ~ Exists (in_range c) rs -> ItemMatch (ISet true rs) [c].
Inductive NameMatch : list item -> str -> Prop :=
| nm_nil : NameMatch [] []
| nm_cons i l a b : ItemMatch i a -> NameMatch l b -> NameMatch (i :: l) (a ++ b).
Inductive PathMatch : list elem -> list str -> Prop :=
| pm_nil : PathMatch [] []
| pm_name l ps n ns : NameMatch l n -> PathMatch ps ns -> PathMatch (PName l :: ps) (n :: ns)
| pm_deep ps skip ns : PathMatch ps ns -> PathMatch (PDeep :: ps) (skip ++ ns).

(** The same for any text instead of a list of names.  The text that ** stands
    for is not empty and without newlines. *)
Definition Gap (g : str) : Prop := g <> [] /\ ~ In NL g.
Inductive After : list elem -> str -> Prop :=
| after_end : After [] []
| after_name l t a b : NameMatch l a -> After t b -> After (PName l :: t) (SLASH :: a ++ b)
| after_none : After [PDeep] []
| after_gap g : Gap g -> After [PDeep] (SLASH :: g)
| after_here l t a b : NameMatch l a -> After t b -> After (PDeep :: PName l :: t) (SLASH :: a ++ b)
| after_deep l t g a b : Gap g -> NameMatch l a -> After t b ->
    After (PDeep :: PName l :: t) (SLASH :: g ++ SLASH :: a ++ b).
Inductive TextMatch : list elem -> str -> Prop :=
| text_name l t a b : NameMatch l a -> After t b -> TextMatch (PName l :: t) (a ++ b)
| text_here l t a b : NameMatch l a -> After t b -> TextMatch (PDeep :: PName l :: t) (a ++ b)
| text_deep l t g a b : Gap g -> NameMatch l a -> After t b ->
    TextMatch (PDeep :: PName l :: t) (g ++ SLASH :: a ++ b).

(** Well-formed patterns. *)
Definition set_char_ok (c : char) : Prop := ~ In c ($"]\-^!/").
Definition range_ok (r : char * char) : Prop :=
  set_char_ok (fst r) /\ set_char_ok (snd r) /\ (fst r <= snd r)%N.
Definition item_ok (i : item) : Prop :=
  match i with
  | ILit c => ~ In c ($"*?[/")
  | ISet _ rs => rs <> [] /\ Forall range_ok rs
  | _ => True
  end.
(** No two stars in a row. *)
Fixpoint no_double (l : list item) : Prop :=
  match l with
  | IStar :: ((IStar :: _) as t) => False
  | _ :: t => no_double t
  | [] => True
  end.
Definition name_pattern (l : list item) : Prop := l <> [] /\ Forall item_ok l /\ no_double l.
(** The sets do not contain the slash. *)
Definition item_no_slash (i : item) : Prop :=
  match i with
  | ISet neg rs => neg = false /\ ~ Exists (in_range SLASH) rs
  | _ => True
  end.
Fixpoint elems_ok (l : list elem) : Prop :=
  match l with
  | [] => True
  | PName i :: t => name_pattern i /\ elems_ok t
  | PDeep :: t => match t with PDeep :: _ => False | _ => elems_ok t end
  end.
(** The pattern does not start with the character of a negation or of an
    escape. *)
Definition plain_start (s : str) : Prop :=
  match s with [] => True | c :: _ => ~ In c ($"!\") end.
(** A name of a directory entry without newlines. *)
Definition entry_name (n : str) : Prop := n <> [] /\ ~ In SLASH n /\ ~ In NL n.

(** A pattern for the base name: one component and no leading slash.  All
    others are for the whole path. *)
Definition for_name (p : pattern) (l : list item) : Prop :=
  p_elems p = [PName l] /\ p_leading p = false /\ name_pattern l.
Definition path_form (p : pattern) : Prop :=
  (p_leading p = true \/ 2 <= length (p_elems p)) /\
  elems_ok (p_elems p) /\ p_elems p <> [] /\ p_elems p <> [PDeep].
(** Those whose components are matched by components of the path *)
Definition separate (l : list elem) : Prop := forall i, In (PName i) l -> Forall item_no_slash i.
Definition for_path (p : pattern) : Prop := path_form p /\ separate (p_elems p).
Definition starts_plain (p : pattern) : Prop :=
  p_leading p = false -> plain_start (body_text (p_elems p)).
