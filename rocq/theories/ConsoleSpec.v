(** Specification of the output on the console. *)
From Coq Require Import List NArith ZArith Bool.
From Verif Require Import Py PathModel EntryModel EntrySpec TypeModel FieldModel ConsoleModel.
Import ListNotations.

(** * Colours *)

(** a value in LS_COLORS, or 0, which resets *)
Definition colour_value (env v : str) : Prop := v = $"0" \/ exists k, In (k ++ 61%N :: v) (split_on 58%N env).
(** [t] is the text [p] with escape sequences inserted *)
Inductive Decorated (env : str) : str -> str -> Prop :=
| dec_end : Decorated env [] []
| dec_char c p t : Decorated env p t -> Decorated env (c :: p) (c :: t)
| dec_esc v p t : colour_value env v -> Decorated env p t -> Decorated env p (27%N :: 91%N :: v ++ 109%N :: t).
(** all values consist of digits and semicolons *)
Definition sgr (env : str) : Prop :=
  forall v, colour_value env v -> forallb (fun c => N.eqb c 59 || (N.leb 48 c && N.leb c 57)) v = true.
(** what a terminal shows: sequences from ESC to m are dropped *)
Fixpoint strip_from (in_sequence : bool) (s : str) : str :=
  match s with
  | [] => []
  | c :: s => if in_sequence then strip_from (negb (N.eqb c 109)) s
              else if N.eqb c 27 then strip_from true s else c :: strip_from false s
  end.
Definition strip_sgr : str -> str := strip_from false.
(** how texts are shown: as they are, or decorated *)
Definition shown (st : style) (env : str) : str -> str -> Prop :=
  match st with Plain => eq | Coloured _ => Decorated env end.

(** * Lines *)

(** [out] is [t], which shows [p], with blanks on one side so that the width is
    at least [w] *)
Definition Padded (w : Z) (p t out : str) : Prop :=
  exists n, (Z.of_nat (length p) + Z.of_nat n = Z.max (Z.of_nat (length p)) (Z.abs w))%Z /\
    ((w < 0)%Z /\ out = t ++ repeat 32%N n \/ (0 <= w)%Z /\ out = repeat 32%N n ++ t).

Section Lines.
  Variable get : centry -> str * str -> res value.
  Variable human : ty -> Z -> str.
  Variable st : style.
  Variable env : str.
  Variable all : bool.

  (** these are never missing *)
  Definition special (f : field) : Prop :=
    In (f_attribute f) [($"file", $"dir"); ($"file", $"name"); ($"file", $"path")].
  Definition Missing (e : centry) (f : field) : Prop := ~ special f /\ get e (f_attribute f) = Err KeyErr.
  (** the text of a field *)
  Inductive PlainText (e : centry) (f : field) : str -> Prop :=
  | pt_dir : f_attribute f = ($"file", $"dir") -> PlainText e f (e_dir (c_entry e))
  | pt_name : f_attribute f = ($"file", $"name") -> PlainText e f (e_name (c_entry e))
  | pt_path : f_attribute f = ($"file", $"path") -> ~ (f_modifier f = Some ($"h") /\ is_symlink e = true) ->
      PlainText e f (e_path (c_entry e))
  | pt_link : f_attribute f = ($"file", $"path") -> f_modifier f = Some ($"h") -> is_symlink e = true ->
      PlainText e f (e_path (c_entry e) ++ $" -> " ++ c_link e)
  | pt_other v s : ~ special f -> get e (f_attribute f) = Ok v -> output human (f_type f) (f_modifier f) v = Ok s ->
      PlainText e f s.
  Inductive Cell (e : centry) (f : field) : str -> Prop :=
  | cell_text p t : PlainText e f p -> shown st env p t -> f_width f = None -> Cell e f t
  | cell_wide w n p t out : PlainText e f p -> shown st env p t -> f_width f = Some w -> py_int w = Some n ->
      Padded n p t out -> Cell e f out
  | cell_missing : Missing e f -> Cell e f [].
  (** the line is not printed *)
  Definition Suppressed (e : centry) (fields : list field) : Prop :=
    all = false /\ exists f, In f fields /\ Missing e f /\ f_modifier f <> Some ($"n").

  (** values that exist are of the declared type, nothing goes wrong but a
      missing value, and widths are numbers *)
  Definition good_fields (e : centry) (fields : list field) : Prop := forall f, In f fields ->
    (get e (f_attribute f) = Err KeyErr \/ exists v, get e (f_attribute f) = Ok v /\ conforms (f_type f) v = true) /\
    (forall w, f_width f = Some w -> exists n, py_int w = Some n).
  (** entries as they are found, except files in the root directory *)
  Definition good_entry (e : centry) : Prop :=
    inside (e_dir (c_entry e)) (e_name (c_entry e)) (e_path (c_entry e)) /\
    (is_dir e = true \/ e_dir (c_entry e) <> [SLASH]).

  (** * Records *)
  Inductive RecordValue (e : centry) (f : field) : option value -> Prop :=
  | rv_missing : get e (f_attribute f) = Err KeyErr -> RecordValue e f None
  | rv_human v s : get e (f_attribute f) = Ok v -> f_modifier f = Some ($"h") ->
      output human (f_type f) (f_modifier f) v = Ok s -> RecordValue e f (Some (VStr s))
  | rv_value v : get e (f_attribute f) = Ok v -> f_modifier f <> Some ($"h") -> RecordValue e f (Some v).
  (** every field has an item; of several fields of the same name the last
      counts *)
  Definition IsRecord (e : centry) (fields : list field) (r : list (str * option value)) : Prop :=
    NoDup (map fst r) /\ forall k v, In (k, v) r <->
      exists before f after, fields = before ++ f :: after /\ f_alias f = k /\ ~ In k (map f_alias after) /\ RecordValue e f v.
End Lines.
