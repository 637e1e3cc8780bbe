(** Model of fields and of what the types do with values that are printed,
    sorted and counted: /repo/libff/field.py:29-121 and /repo/libff/type.py. *)
From Coq Require Import List NArith ZArith Bool.
From Verif Require Import Py Re ConvertModel TypeModel RegistryModel.
Import ListNotations.

(** libff/field.py:29; the width is the text of the regular expression's
    group, the modifier one of the letters h, o, x, n, v.  An attribute is a
    pair with an alias (libff/attribute.py:24-36): the name as it was typed,
    which str() returns and which == ignores. *)
Record field := Field { f_attribute : str * str; f_alias : str; f_type : ty;
                        f_width : option str; f_modifier : option str }.
(** field1 == field2 *)
Definition opt_eqb (a b : option str) : bool :=
  match a, b with Some a, Some b => str_eqb a b | None, None => true | _, _ => false end.
Definition field_eqb (f g : field) : bool :=
  str_eqb (fst (f_attribute f)) (fst (f_attribute g)) && str_eqb (snd (f_attribute f)) (snd (f_attribute g)) &&
  ty_eqb (f_type f) (f_type g) && opt_eqb (f_width f) (f_width g) && opt_eqb (f_modifier f) (f_modifier g).

(** libff/field.py:51-52 *)
Definition field_pattern : str :=
  $"^((?:[a-zA-Z][a-zA-Z0-9_]+\.)?[a-zA-Z][a-zA-Z0-9_]+?)(?::(-?\d+)?(h|o|x|n|v)?)?$".
Definition field_re : re :=
  Eval vm_compute in match compile false field_pattern with COk r => r | _ => Eps end.
Lemma field_re_ok : compile false field_pattern = COk field_re.
Proof. reflexivity. Qed.

Section Make.
  Variable registered : list plugin.
  Variable init_plugin : str -> res unit.

  (** libff/field.py:63-72; get_attribute_type (registry.py:291-298).  In both
      ways to make the attribute (registry.py:177, 184, 188) the alias is the
      name. *)
  Definition make_field (string : str) : res field :=
    match re_match field_re (strip string) with
    | None => Err UsageError
    | Some (_, cs) =>
        match group 1 cs with
        | None => Err UsageError
        | Some name =>
            do attribute <- setup_attribute registered init_plugin name;
            do t <- get_attribute_type registered attribute;
            Ok (Field attribute name t (group 2 cs) (group 3 cs))
        end
    end.
End Make.

Definition has_modifier (f : field) (c : str) : bool :=
  match f_modifier f with Some d => str_eqb d c | None => false end.

(** * Output *)

(** The digits of a number in a base up to 16; [fuel] is at least the number
    of its digits. *)
Definition digit_char (d : N) : char := if (d <? 10)%N then (48 + d)%N else (87 + d)%N.
Fixpoint base_digits (fuel : nat) (b n : N) (acc : str) : str :=
  match fuel with
  | O => acc
  | S fuel =>
      let acc := digit_char (n mod b) :: acc in
      if (n / b =? 0)%N then acc else base_digits fuel b (n / b)%N acc
  end.
(** f"{value:x}" and f"{value:o}" *)
Definition format_base (b : N) (z : Z) : str :=
  let n := Z.abs_N z in
  let s := base_digits (S (N.to_nat (N.log2 n))) b n [] in
  if (z <? 0)%Z then 45%N :: s else s.

(** str(value) *)
Definition py_str (v : value) : res str :=
  match v with
  | VStr s => Ok s
  | VInt z => Ok (str_of_Z z)
  | VBool b => Ok (if b then $"True" else $"False")
  | VList _ => Err Unmodelled
  end.

Section Output.
  (** The human readable forms of modes, sizes and times: stat.filemode,
      convert.format_size and convert.format_time (libff/convert.py:27-46,
      133-136), which use floating point numbers and the local time zone. *)
  Variable human : ty -> Z -> str.

  (** Number.output (type.py:261-268) on integers *)
  Definition number_output (modifier : option str) (z : Z) : str :=
    match modifier with
    | Some m => if str_eqb m ($"x") then format_base 16 z
                else if str_eqb m ($"o") then format_base 8 z
                else str_of_Z z
    | None => str_of_Z z
    end.
  (** The class methods output (type.py:105-113, 233-235, 261-268, 360-369,
      390-395, 407-412, 425-430, 450-452).  A value that is not of the type
      raises some exception, here TypeError. *)
  Definition output (t : ty) (modifier : option str) (v : value) : res str :=
    let is_h := match modifier with Some m => str_eqb m ($"h") | None => false end in
    match t, v with
    | TString, _ | TPath, _ | TFileType, _ => py_str v
    | TListOfStrings, VList l => Ok (join_with ($",") l)
    | TBoolean, VBool b => Ok (if b then $"true" else $"false")
    | TNumber, VInt z => Ok (number_output modifier z)
    | TMode, VInt z | TSize, VInt z | TTime, VInt z =>
        Ok (if is_h then human t z else number_output modifier z)
    | TDuration, VInt z => Ok (if is_h then format_duration z else number_output modifier z)
    | _, _ => Err TypeErr
    end.
End Output.

(** A value conforms to a type: Type.check_type (type.py:115-122, 237-241;
    used by registry.py:265-271 if assertions are on). *)
Definition conforms (t : ty) (v : value) : bool :=
  match t, v with
  | (TString | TPath | TFileType), VStr _ => true
  | TListOfStrings, VList _ => true
  | (TNumber | TMode | TSize | TTime | TDuration), VInt _ => true
  | TBoolean, VBool _ => true
  | _, _ => false
  end.

(** The class attribute [count] (type.py:69, 137, 197, 225, 286, 384, 419,
    440). *)
Inductive countable := COUNT | TOTAL | UNCOUNTABLE.
Definition count_of (t : ty) : countable :=
  match t with
  | TSize | TDuration => TOTAL
  | TListOfStrings => UNCOUNTABLE
  | _ => COUNT
  end.

(** * Lists of fields *)

Section Fields.
  Variable registered : list plugin.
  Variable init_plugin : str -> res unit.
  (** OutputFields.store (field.py:89-91) *)
  Definition output_fields (argument : list str) : res (list field) :=
    mapr (make_field registered init_plugin) argument.
  (** CountFields.store (field.py:116-121) *)
  Definition count_fields (argument : list str) : res (list field) :=
    do fields <- output_fields argument;
    if existsb (fun f => match count_of (f_type f) with UNCOUNTABLE => true | _ => false end) fields
    then Err UsageError else Ok fields.
End Fields.
