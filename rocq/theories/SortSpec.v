(** Specification of sorting, independent of the way keys are compared and
    lists are sorted in the model. *)
From Coq Require Import List NArith ZArith Bool Permutation Sorting.Sorted.
From Verif Require Import Py TypeModel FieldModel SortModel.
Import ListNotations.

(** The order of texts: at the first difference the smaller character is
    first; a proper beginning comes first. *)
Inductive StrBefore : str -> str -> Prop :=
| strbefore_char p x y a b : (x < y)%N -> StrBefore (p ++ x :: a) (p ++ y :: b)
| strbefore_end p y b : StrBefore p (p ++ y :: b).
(** The order of keys *)
Inductive Before : pv -> pv -> Prop :=
| before_str a b : StrBefore a b -> Before (PStr a) (PStr b)
| before_int a b : (a < b)%Z -> Before (PInt a) (PInt b)
| before_item p x y a b : Before x y -> Before (PList (p ++ x :: a)) (PList (p ++ y :: b))
| before_end p y b : Before (PList p) (PList (p ++ y :: b)).

(** [out] is [entries] sorted by [key], equal keys staying in the order of
    arrival: the same entries; the keys in order; and every group of entries
    of equal keys is in [out] in the order of [entries]. *)
Definition Sorted_by {A} (key : A -> pv) (reverse : bool) (entries out : list A) : Prop :=
  Permutation entries out /\
  StronglySorted (fun a b => (if reverse then Before (key b) (key a) else Before (key a) (key b)) \/ key a = key b) out /\
  (forall p : A -> bool, (forall a b, In a entries -> In b entries -> p a = true -> p b = true -> key a = key b) ->
    filter p out = filter p entries).

(** All values are of the types of their attributes; entries may lack
    attributes. *)
Definition well_typed {A} (get : A -> str * str -> res value) (fields : list field) (entries : list A) : Prop :=
  forall a f, In a entries -> In f fields ->
    get a (f_attribute f) = Err KeyErr \/ exists v, get a (f_attribute f) = Ok v /\ conforms (f_type f) v = true.

(** A run of digits, read as a number *)
Definition digits (d : str) : Prop := d <> [] /\ Forall (fun c => (48 <= c <= 57)%N) d.
Definition number (d : str) : N := fold_left (fun n c => n * 10 + (c - 48))%N d 0%N.
Definition no_digit_first (s : str) : Prop := match s with [] => True | c :: _ => ~ (48 <= c <= 57)%N end.
Definition no_digit_last (s : str) : Prop := no_digit_first (rev s).
(** The superscripts 2, 3, 1: isdigit() holds for them but they are no decimal
    digits. *)
Definition superscript (c : char) : Prop := c = 178%N \/ c = 179%N \/ c = 185%N.

(** At most one dot in every component of a path *)
Definition one_dot (c : str) : Prop := (count_occ N.eq_dec c DOT <= 1)%nat.

(** The attributes that are sorted naturally are texts without superscripts,
    and each of them is present; the values of the other attributes are of the
    right types or missing.  [good] restricts the texts further. *)
Definition natural {A} (good : str -> Prop) (get : A -> str * str -> res value) (fields : list field) (entries : list A) : Prop :=
  well_typed get fields entries /\
  forall a f, In a entries -> In f fields -> f_modifier f = Some ($"v") ->
    (f_type f = TString \/ f_type f = TPath) /\
    exists s, get a (f_attribute f) = Ok (VStr s) /\ good s /\ ~ Exists superscript s.

(** [n] is a name; [p] is before and [r] after the number [d], which is
    before the first dot. *)
Definition numbered (n p d r : str) : Prop :=
  n = p ++ d ++ r /\ ~ In SLASH n /\ ~ Exists superscript n /\ ~ In DOT p /\ no_digit_last p /\ digits d /\ no_digit_first r.
