(** Specification of --count. *)
From Coq Require Import List NArith ZArith Bool.
From Verif Require Import Py TypeModel FieldModel CountModel.
Import ListNotations.

Definition value_dec (a b : value) : {a = b} + {a <> b}.
Proof. decide equality; try apply (list_eq_dec (list_eq_dec N.eq_dec)); try apply (list_eq_dec N.eq_dec); try apply Z.eq_dec; apply bool_dec. Defined.

(** What makes two fields the same: everything but the way the name of the
    attribute was written. *)
Definition ident (f : field) := (f_attribute f, f_type f, f_width f, f_modifier f).

Section Count.
  Context {A : Type}.
  Variable get : A -> str * str -> res value.

  (** the number of results that have the attribute *)
  Definition present (f : field) (e : A) : bool := match get e (f_attribute f) with Ok _ => true | Err _ => false end.
  Definition present_in (f : field) (entries : list A) : nat := length (filter (present f) entries).
  (** the number of results that have the value *)
  Definition has_value (f : field) (v : value) (e : A) : bool :=
    match get e (f_attribute f) with Ok w => if value_dec v w then true else false | Err _ => false end.
  Definition occurs (f : field) (v : value) (entries : list A) : nat := length (filter (has_value f v) entries).
  (** the sum of the values *)
  Fixpoint sum_of (f : field) (entries : list A) : Z :=
    match entries with
    | [] => 0%Z
    | e :: entries => (match get e (f_attribute f) with Ok (VInt z) => z | _ => 0 end + sum_of f entries)%Z
    end.

  (** The lines that are printed *)
  Variable human : ty -> Z -> str.
  Inductive Line (fields : list field) (entries : list A) : str -> Prop :=
  | line_total : entries <> [] -> Line fields entries ($"_total=" ++ str_of_Z (Z.of_nat (length entries)))
  | line_sum f : In f fields -> count_of (f_type f) = TOTAL -> present_in f entries <> 0%nat -> f_modifier f = None ->
      Line fields entries (f_alias f ++ $"=" ++ str_of_Z (sum_of f entries))
  | line_formatted f m s : In f fields -> count_of (f_type f) = TOTAL -> present_in f entries <> 0%nat -> f_modifier f = Some m ->
      output human (f_type f) (Some m) (VInt (sum_of f entries)) = Ok s ->
      Line fields entries (f_alias f ++ $"=" ++ s)
  | line_value f v s : In f fields -> count_of (f_type f) = COUNT -> occurs f v entries <> 0%nat ->
      output human (f_type f) (f_modifier f) v = Ok s ->
      Line fields entries (f_alias f ++ $"[" ++ s ++ $"]=" ++ str_of_Z (Z.of_nat (occurs f v entries))).
  (** The entries of the JSON object; the texts of a field's values with their
      counts, each once *)
  Definition Texts (f : field) (entries : list A) (l : list (str * Z)) : Prop :=
    NoDup (map fst l) /\
    forall s n, In (s, n) l <-> exists v, occurs f v entries <> 0%nat /\ output human (f_type f) (f_modifier f) v = Ok s /\
      n = Z.of_nat (occurs f v entries).
  Inductive Item (fields : list field) (entries : list A) : str -> pcell -> Prop :=
  | item_total : entries <> [] -> Item fields entries ($"_total") (PNumber (Z.of_nat (length entries)))
  | item_sum f : In f fields -> count_of (f_type f) = TOTAL -> present_in f entries <> 0%nat -> f_modifier f = None ->
      Item fields entries (f_alias f) (PNumber (sum_of f entries))
  | item_formatted f m s : In f fields -> count_of (f_type f) = TOTAL -> present_in f entries <> 0%nat -> f_modifier f = Some m ->
      output human (f_type f) (Some m) (VInt (sum_of f entries)) = Ok s -> Item fields entries (f_alias f) (PText s)
  | item_values f l : In f fields -> count_of (f_type f) = COUNT -> present_in f entries <> 0%nat -> Texts f entries l ->
      Item fields entries (f_alias f) (PPer l).
  (** Different values are printed differently. *)
  Definition distinguishable (fields : list field) (entries : list A) : Prop :=
    forall f v w, In f fields -> count_of (f_type f) = COUNT -> occurs f v entries <> 0%nat -> occurs f w entries <> 0%nat ->
      output human (f_type f) (f_modifier f) v = output human (f_type f) (f_modifier f) w -> v = w.
End Count.

(** A text that str.isdigit accepts *)
Definition numeral (s : str) : Prop := s <> [] /\ Forall (fun c => (48 <= c <= 57)%N \/ c = 178%N \/ c = 179%N \/ c = 185%N) s.
Definition decimal_digits (s : str) : Prop := Forall (fun c => (48 <= c <= 57)%N) s.

(** Of the texts of the values of a field all or none are numerals, and the
    numerals have decimal digits only. *)
Definition uniform {A} (get : A -> str * str -> res value) (human : ty -> Z -> str) (f : field) (entries : list A) : Prop :=
  let shown s := exists v, occurs get f v entries <> 0%nat /\ output human (f_type f) (f_modifier f) v = Ok s in
  (forall s, shown s -> numeral s -> decimal_digits s) /\
  ((forall s, shown s -> numeral s) \/ (forall s, shown s -> ~ numeral s)).
