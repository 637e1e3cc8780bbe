(** Specification of command templates. *)
From Coq Require Import List NArith ZArith Bool.
From Verif Require Import Py TypeModel RegistryModel FieldModel.
Import ListNotations.

(** A template is a sequence of characters and placeholders. *)
Inductive piece := PChar (c : char) | PHole (name : str).
Definition OPEN : char := 123%N.
Definition CLOSE : char := 125%N.
(** How a template is read: doubled braces are braces; an opening brace and
    the next closing brace enclose a name; everything else is itself. *)
Inductive Reads : str -> list piece -> Prop :=
| reads_end : Reads [] []
| reads_open s l : Reads s l -> Reads (OPEN :: OPEN :: s) (PChar OPEN :: l)
| reads_close s l : Reads s l -> Reads (CLOSE :: CLOSE :: s) (PChar CLOSE :: l)
| reads_hole name s l : ~ In CLOSE name -> hd_error name <> Some OPEN -> Reads s l ->
    Reads (OPEN :: name ++ CLOSE :: s) (PHole name :: l)
| reads_char c s l : c <> OPEN -> c <> CLOSE -> Reads s l -> Reads (c :: s) (PChar c :: l)
| reads_single_open s l : hd_error s <> Some OPEN -> ~ In CLOSE s -> Reads s l -> Reads (OPEN :: s) (PChar OPEN :: l)
| reads_single_close s l : hd_error s <> Some CLOSE -> Reads s l -> Reads (CLOSE :: s) (PChar CLOSE :: l).
(** A text with its braces doubled *)
Fixpoint double (s : str) : str :=
  match s with
  | [] => []
  | c :: s => if N.eqb c OPEN || N.eqb c CLOSE then c :: c :: double s else c :: double s
  end.
(** The attribute that a placeholder names *)
Inductive Names : str -> str -> Prop :=
| names_path : Names [] ($"file.path")
| names_name : Names ($"/") ($"file.name")
| names_dir : Names ($"//") ($"file.dir")
| names_pathx : Names ($".") ($"file.pathx")
| names_namex : Names ($"/.") ($"file.namex")
| names_ext : Names ($"..") ($"file.ext")
| names_attribute name : ~ In name [[]; $"/"; $"//"; $"."; $"/."; $".."] -> Names name name.
Definition has_hole (l : list piece) : Prop := exists h, In (PHole h) l.

Section Expand.
  Context {A : Type}.
  Variable get : A -> str * str -> res value.
  Variable human : ty -> Z -> str.
  Variable all : bool.
  (** the field that a placeholder stands for *)
  Variable slot : str -> field -> Prop.

  (** a field's text for an entry; a missing value is empty if --all or :n says
      so *)
  Inductive Shows (e : A) (f : field) : str -> Prop :=
  | shows_value v s : get e (f_attribute f) = Ok v -> output human (f_type f) (f_modifier f) v = Ok s -> Shows e f s
  | shows_nothing : get e (f_attribute f) = Err KeyErr -> all = true \/ f_modifier f = Some ($"n") -> Shows e f [].
  Definition Lacks (e : A) (f : field) : Prop :=
    get e (f_attribute f) = Err KeyErr /\ all = false /\ f_modifier f <> Some ($"n").
  (** an argument with its placeholders replaced *)
  Inductive Expands (e : A) : list piece -> str -> Prop :=
  | expands_end : Expands e [] []
  | expands_char c l s : Expands e l s -> Expands e (PChar c :: l) (c :: s)
  | expands_hole h f l t s : slot h f -> Shows e f t -> Expands e l s -> Expands e (PHole h :: l) (t ++ s).
  (** a value is missing *)
  Definition Fails (e : A) (l : list piece) : Prop := exists h f, In (PHole h) l /\ slot h f /\ Lacks e f.
  (** one argument for each entry that has all values *)
  Inductive Picks (l : list piece) : list A -> list str -> Prop :=
  | picks_end : Picks l [] []
  | picks_keep e entries s out : Expands e l s -> Picks l entries out -> Picks l (e :: entries) (s :: out)
  | picks_skip e entries out : Fails e l -> Picks l entries out -> Picks l (e :: entries) out.
  (** the arguments made of one template in batch mode *)
  Inductive Batch (entries : list A) (l : list piece) : list str -> Prop :=
  | batch_holes out : has_hole l -> Picks l entries out -> Batch entries l out
  | batch_text s : l = map PChar s -> Batch entries l [s].
End Expand.
(** the path is appended if there is no placeholder but in the command *)
Definition with_path (templates : list (list piece)) (full : list (list piece)) : Prop :=
  (exists l, In l (tl templates) /\ has_hole l) /\ full = templates \/
  (forall l, In l (tl templates) -> ~ has_hole l) /\ full = templates ++ [[PHole []]].

Section Slot.
  Variable registered : list plugin.
  Variable init_plugin : str -> res unit.
  Notation make := (make_field registered init_plugin).
  (** the field that a placeholder stands for *)
  Definition slot (h : str) (f : field) : Prop := exists name, Names h name /\ make name = Ok f.
  Definition holes_ok (l : list piece) : Prop := forall h, In (PHole h) l -> exists f, slot h f.
  Definition bad_hole (l : list piece) (e : exc) : Prop := exists h name, In (PHole h) l /\ Names h name /\ make name = Err e.
  (** values that exist are of the declared type, and nothing goes wrong but
      a missing value *)
  Definition typed {A} (get : A -> str * str -> res value) : Prop := forall e h f, slot h f -> get e (f_attribute f) = Err KeyErr \/
    exists v, get e (f_attribute f) = Ok v /\ conforms (f_type f) v = true.
End Slot.
